(** Facts about the buffers that keys own. *)
From Coq Require Import Lia Permutation.
From Verif Require Import Base KeyType PubKeyType PrivKey Memory SpecMemory.

Lemma nth_update : forall h a f b,
  nth_error (update a f h) b = if Nat.eqb a b then option_map f (nth_error h b) else nth_error h b.
Proof.
  induction h as [|x h IH]; intros [|a] f [|b]; cbn; try reflexivity.
  - destruct (Nat.eqb a b); reflexivity.
  - apply IH.
Qed.


Lemma update_split : forall h1 x h2 f, update (length h1) f (h1 ++ x :: h2) = h1 ++ f x :: h2.
Proof. induction h1 as [|y h1 IH]; intros; cbn; [reflexivity|now rewrite IH]. Qed.

(** ** Which buffers are in use *)
Definition live_at (m : heap) (a : nat) : Prop := exists c, nth_error m a = Some (mkBlock true c).
Definition owns (l : list nat) (m : heap) : Prop := NoDup l /\ forall a, In a l <-> live_at m a.

Lemma owns_perm l l' m : Permutation l l' -> owns l m -> owns l' m.
Proof.
  intros P [N H]. split; [eapply Permutation_NoDup; eauto|]. intros a. rewrite <- H.
  split; apply Permutation_in; [apply Permutation_sym|]; exact P.
Qed.

Lemma live_lt m a : live_at m a -> a < length m.
Proof. intros [c H]. apply nth_error_Some. congruence. Qed.

Lemma owns_alloc l m c : owns l m -> owns (length m :: l) (m ++ [mkBlock true c]).
Proof.
  intros [N H]. split.
  - constructor; [|exact N]. intros I. apply H, live_lt in I. lia.
  - intros a. cbn [In]. split.
    + intros [<-|I].
      * exists c. rewrite nth_error_app2, Nat.sub_diag by lia. reflexivity.
      * pose proof (proj1 (H a) I) as L. pose proof (live_lt _ _ L) as Lt. destruct L as [x L].
        exists x. rewrite nth_error_app1 by lia. exact L.
    + intros [x L]. destruct (Nat.lt_ge_cases a (length m)) as [Lt|Ge].
      * right. apply H. exists x. rewrite nth_error_app1 in L by lia. exact L.
      * left. rewrite nth_error_app2 in L by lia. remember (a - length m) as n eqn:E.
        destruct n as [|[|n]]; [lia|discriminate L|discriminate L].
Qed.

Lemma owns_free a l m : owns (a :: l) m -> owns l (update a free_block m).
Proof.
  intros [N H]. inversion N as [|? ? Na Nl]; subst. split; [exact Nl|]. intros b. unfold live_at.
  rewrite nth_update. destruct (Nat.eqb_spec a b) as [<-|D].
  - split; [contradiction|]. intros [c E]. destruct (nth_error m a); cbn in E; discriminate.
  - rewrite <- (H b : _ <-> exists c, _). cbn [In]. intuition congruence.
Qed.

Lemma owns_wipe a l m : owns l m -> owns l (update a wipe_block m).
Proof.
  intros [N H]. split; [exact N|]. intros b. rewrite H. unfold live_at. rewrite nth_update.
  destruct (Nat.eqb a b); [|reflexivity].
  destruct (nth_error m b) as [[lv c]|]; cbn; [|reflexivity].
  unfold wipe_block; cbn. split; intros [c' E]; injection E as -> _; eauto.
Qed.

(** ** What is left *)
Lemma leftovers_app m1 m2 : leftovers (m1 ++ m2) = leftovers m1 ++ leftovers m2.
Proof. unfold leftovers. now rewrite filter_app, map_app, filter_app. Qed.
Lemma leftovers_live c : leftovers [mkBlock true c] = [].
Proof. reflexivity. Qed.
Lemma zeros_repeat n : zeros (repeat x00 n) = true.
Proof. unfold zeros. induction n; cbn; auto. Qed.

Lemma leftovers_update a f m b :
  nth_error m a = Some b -> leftovers [f b] = leftovers [b] -> leftovers (update a f m) = leftovers m.
Proof.
  intros E H. destruct (nth_error_split _ _ E) as (m1 & m2 & -> & <-). rewrite update_split.
  change (f b :: m2) with ([f b] ++ m2). change (b :: m2) with ([b] ++ m2).
  now rewrite !leftovers_app, H.
Qed.

Lemma leftovers_free a c m :
  nth_error m a = Some (mkBlock true c) ->
  Permutation (leftovers (update a free_block m)) (filter (fun b => negb (zeros b)) [c] ++ leftovers m).
Proof.
  intros E. destruct (nth_error_split _ _ E) as (m1 & m2 & -> & <-). rewrite update_split.
  change (free_block (mkBlock true c) :: m2) with ([mkBlock false c] ++ m2).
  change (mkBlock true c :: m2) with ([mkBlock true c] ++ m2).
  rewrite !leftovers_app, leftovers_live. cbn [List.app].
  change (leftovers [mkBlock false c]) with (filter (fun b => negb (zeros b)) [c]).
  rewrite !app_assoc. apply Permutation_app_tail, Permutation_app_comm.
Qed.

(** ** Wiping and giving back the buffers of a key *)
Definition wiped (m : heap) (a : nat) : Prop := exists b, nth_error m a = Some b /\ zeros (bl_bytes b) = true.

Lemma fold_wipe : forall l m own,
  owns own m -> incl l own ->
  let m' := fold_left (fun m a => update a wipe_block m) l m in
  owns own m' /\ leftovers m' = leftovers m /\ Forall (wiped m') l /\
  forall a, ~ In a l -> nth_error m' a = nth_error m a.
Proof.
  induction l as [|x l IH]; intros m own O I; cbn [fold_left].
  - cbn. auto.
  - destruct (IH (update x wipe_block m) own (owns_wipe _ _ _ O) (fun a H => I a (or_intror H)))
      as (O' & L & W & K).
    pose proof (proj1 (proj2 O x) (I x (or_introl eq_refl))) as [c E].
    set (m' := fold_left (fun m a => update a wipe_block m) l (update x wipe_block m)) in *.
    split; [exact O'|]. split; [|split].
    + rewrite L. apply (leftovers_update _ _ _ _ E). reflexivity.
    + constructor; [|exact W]. destruct (in_dec Nat.eq_dec x l) as [Il|Nl].
      * rewrite Forall_forall in W. apply W, Il.
      * unfold wiped. rewrite (K _ Nl), nth_update, Nat.eqb_refl, E. cbn. eexists. split; [reflexivity|].
        apply zeros_repeat.
    + intros a Na. cbn [In] in Na. rewrite K by tauto. rewrite nth_update.
      destruct (Nat.eqb_spec x a); [tauto|reflexivity].
Qed.

Lemma fold_free : forall l m own,
  owns (l ++ own) m -> Forall (wiped m) l ->
  let m' := fold_left (fun m a => update a free_block m) l m in
  owns own m' /\ leftovers m' = leftovers m /\ forall a, ~ In a l -> nth_error m' a = nth_error m a.
Proof.
  induction l as [|x l IH]; intros m own O W; cbn [fold_left].
  - cbn. auto.
  - inversion W as [|? ? Wx Wl]; subst.
    destruct (IH (update x free_block m) own) as (O' & L & K).
    + apply owns_free. exact O.
    + rewrite Forall_forall in *. intros a Ia. destruct (Wl a Ia) as (b & E & Z). unfold wiped.
      rewrite nth_update, E. destruct (Nat.eqb x a); eexists; (split; [reflexivity|exact Z]).
    + split; [exact O'|]. split.
      * rewrite L. destruct Wx as (b & E & Z). apply (leftovers_update _ _ _ _ E).
        unfold leftovers, free_block. destruct b as [[|] c]; cbn in *; rewrite ?Z; reflexivity.
      * intros a Na. cbn [In] in Na. rewrite K by tauto. rewrite nth_update.
        destruct (Nat.eqb_spec x a); [tauto|reflexivity].
Qed.

(** ** Keys *)
Lemma contents_ext m m' a : nth_error m' a = nth_error m a -> contents m' a = contents m a.
Proof. unfold contents. now intros ->. Qed.

Lemma load_ext m m' k :
  (forall a, In a (buffers (mk_kind k)) -> nth_error m' a = nth_error m a) -> load m' k = load m k.
Proof.
  intros H. unfold load. f_equal.
  assert (C : forall a, In a (buffers (mk_kind k)) -> contents m' a = contents m a)
    by (intros a I; apply contents_ext, H, I). clear H.
  destruct (mk_kind k) as [n e d c p q exp exq|c key|f h r pin path|key|f h r pin path]; cbn [buffers] in C.
  - assert (E : option_map (contents m') exp = option_map (contents m) exp).
    { destruct exp as [x|]; [|reflexivity]. cbn. f_equal. apply C. cbn. tauto. }
    assert (E' : option_map (contents m') exq = option_map (contents m) exq).
    { destruct exq as [x|]; [|reflexivity]. cbn. f_equal. apply C. rewrite !in_app_iff. cbn. tauto. }
    cbn [load_kind]. rewrite E, E', !C by (cbn; tauto). reflexivity.
  - cbn [load_kind]. rewrite C by (cbn; tauto). reflexivity.
  - assert (E : option_map (contents m') pin = option_map (contents m) pin).
    { destruct pin as [x|]; [|reflexivity]. cbn. f_equal. apply C. cbn. tauto. }
    assert (E' : option_map (contents m') path = option_map (contents m) path).
    { destruct path as [x|]; [|reflexivity]. cbn. f_equal. apply C. rewrite !in_app_iff. cbn. tauto. }
    cbn [load_kind]. unfold load_hw. rewrite E, E', !C by (cbn; tauto). reflexivity.
  - cbn [load_kind]. rewrite C by (cbn; tauto). reflexivity.
  - assert (E : option_map (contents m') pin = option_map (contents m) pin).
    { destruct pin as [x|]; [|reflexivity]. cbn. f_equal. apply C. cbn. tauto. }
    assert (E' : option_map (contents m') path = option_map (contents m) path).
    { destruct path as [x|]; [|reflexivity]. cbn. f_equal. apply C. rewrite !in_app_iff. cbn. tauto. }
    cbn [load_kind]. unfold load_hw. rewrite E, E', !C by (cbn; tauto). reflexivity.
Qed.

(** What allocating did: [l] are new, [m'] extends [m]. *)
Definition grows (m : heap) (l : list nat) (m' : heap) : Prop :=
  (forall own, owns own m -> owns (l ++ own) m') /\ leftovers m' = leftovers m /\
  forall a, a < length m -> nth_error m' a = nth_error m a.

Lemma grows_refl m : grows m [] m.
Proof. split; [|split]; auto. Qed.
Lemma grows_len m l m' : grows m l m' -> length m <= length m'.
Proof.
  intros (_ & _ & H). destruct (length m) as [|n] eqn:E; [lia|].
  specialize (H n ltac:(lia)). assert (L : n < length m) by lia. apply nth_error_Some in L.
  rewrite <- H in L. apply nth_error_Some in L. lia.
Qed.
Lemma grows_trans m1 m2 m3 l l' : grows m1 l m2 -> grows m2 l' m3 -> grows m1 (l ++ l') m3.
Proof.
  intros G1 G2. pose proof (grows_len _ _ _ G1) as Len. destruct G1 as (O1 & L1 & K1), G2 as (O2 & L2 & K2).
  split; [|split].
  - intros own O. eapply owns_perm; [|apply O2, O1, O]. rewrite !app_assoc. apply Permutation_app_tail, Permutation_app_comm.
  - congruence.
  - intros a Lt. rewrite K2 by lia. auto.
Qed.
Lemma grows_alloc c m : grows m [length m] (m ++ [mkBlock true c]).
Proof.
  split; [|split].
  - intros own O. apply owns_alloc, O.
  - rewrite leftovers_app, leftovers_live. apply app_nil_r.
  - intros a Lt. now rewrite nth_error_app1.
Qed.

Lemma alloc_ok c m a m' : alloc c m = (a, m') -> grows m [a] m' /\ contents m' a = c /\ a < length m'.
Proof.
  unfold alloc. intros E. injection E as <- <-. split; [apply grows_alloc|]. unfold contents.
  rewrite nth_error_app2, Nat.sub_diag by lia. cbn. rewrite app_length. cbn. split; [reflexivity|lia].
Qed.
Lemma alloc_opt_ok o m a m' :
  alloc_opt o m = (a, m') ->
  grows m (opt_list a) m' /\ option_map (contents m') a = o /\ Forall (fun a => a < length m') (opt_list a).
Proof.
  destruct o as [c|]; cbn [alloc_opt].
  - destruct (alloc c m) as [x m1] eqn:E. intros H. injection H as <- <-.
    destruct (alloc_ok _ _ _ _ E) as (G & C & L). cbn. rewrite C. auto.
  - intros H. injection H as <- <-. cbn. split; [apply grows_refl|auto].
Qed.
Lemma grows_contents m l m' a : grows m l m' -> a < length m -> contents m' a = contents m a.
Proof. intros (_ & _ & K) L. apply contents_ext, K, L. Qed.
Lemma grows_contents_opt m l m' o :
  grows m l m' -> Forall (fun a => a < length m) (opt_list o) -> option_map (contents m') o = option_map (contents m) o.
Proof.
  intros G L. destruct o as [a|]; [|reflexivity]. cbn in *. f_equal. eapply grows_contents; [exact G|].
  now inversion L.
Qed.

Ltac step_alloc :=
  match goal with
  | |- context [let '(_, _) := alloc ?c ?m in _] =>
      let a := fresh "a" in let m' := fresh "m" in let E := fresh "E" in
      let G := fresh "G" in let C := fresh "C" in let L := fresh "L" in
      destruct (alloc c m) as [a m'] eqn:E; destruct (alloc_ok _ _ _ _ E) as (G & C & L); clear E
  | |- context [let '(_, _) := alloc_opt ?c ?m in _] =>
      let a := fresh "a" in let m' := fresh "m" in let E := fresh "E" in
      let G := fresh "G" in let C := fresh "C" in let L := fresh "L" in
      destruct (alloc_opt c m) as [a m'] eqn:E; destruct (alloc_opt_ok _ _ _ _ E) as (G & C & L); clear E
  end.

Lemma place_hw_ok h m x m' :
  place_hw h m = (x, m') ->
  let '(a, r, pin, path) := x in
  grows m ([a; r] ++ opt_list pin ++ opt_list path) m' /\ load_hw m' (hw_flags h) a r pin path = h.
Proof.
  unfold place_hw. repeat step_alloc. intros E. injection E as <- <-.
  pose proof (grows_trans _ _ _ _ _ G1 G2) as G12. pose proof (grows_trans _ _ _ _ _ G0 G12) as G012.
  pose proof (grows_trans _ _ _ _ _ G G012) as Gall. split; [exact Gall|].
  unfold load_hw. rewrite (grows_contents _ _ _ _ G012 L), C, (grows_contents _ _ _ _ G12 L0), C0,
    (grows_contents_opt _ _ _ _ G2 L1), C1, C2. now destruct h.
Qed.

Lemma place_ok k m k' m' :
  place k m = (k', m') -> grows m (buffers (mk_kind k')) m' /\ load m' k' = k.
Proof.
  unfold place. destruct (place_kind (sk_kind k) m) as [kd m1] eqn:P. intros E. injection E as <- <-.
  cbn [mk_kind]. enough (H : grows m (buffers kd) m1 /\ load_kind m1 kd = sk_kind k).
  { destruct H as [H1 H2]. split; [exact H1|]. unfold load. cbn [mk_type mk_kind mk_pub mk_magic mk_comment].
    rewrite H2. now destruct k. }
  revert P. destruct (sk_kind k) as [r|c key|h|key|h]; cbn [place_kind].
  - repeat step_alloc. intros E. injection E as <- <-.
    pose proof (grows_trans _ _ _ _ _ G5 G6) as H5. pose proof (grows_trans _ _ _ _ _ G4 H5) as H4.
    pose proof (grows_trans _ _ _ _ _ G3 H4) as H3. pose proof (grows_trans _ _ _ _ _ G2 H3) as H2.
    pose proof (grows_trans _ _ _ _ _ G1 H2) as H1. pose proof (grows_trans _ _ _ _ _ G0 H1) as H0.
    split; [exact (grows_trans _ _ _ _ _ G H0)|]. cbn [load_kind].
    rewrite (grows_contents _ _ _ _ H0 L), C, (grows_contents _ _ _ _ H1 L0), C0, (grows_contents _ _ _ _ H2 L1), C1,
      (grows_contents _ _ _ _ H3 L2), C2, (grows_contents _ _ _ _ H4 L3), C3, (grows_contents _ _ _ _ H5 L4), C4,
      (grows_contents_opt _ _ _ _ G6 L5), C5, C6. now destruct r.
  - step_alloc. intros E. injection E as <- <-. split; [exact G|]. cbn [load_kind]. now rewrite C.
  - destruct (place_hw h m) as [x m2] eqn:E. destruct x as [[[x y] z] w]. intros E'. injection E' as <- <-.
    destruct (place_hw_ok _ _ _ _ E) as [G H]. split; [exact G|]. cbn [load_kind]. now rewrite H.
  - step_alloc. intros E. injection E as <- <-. split; [exact G|]. cbn [load_kind]. now rewrite C.
  - destruct (place_hw h m) as [x m2] eqn:E. destruct x as [[[x y] z] w]. intros E'. injection E' as <- <-.
    destruct (place_hw_ok _ _ _ _ E) as [G H]. split; [exact G|]. cbn [load_kind]. now rewrite H.
Qed.

(** Dropping a key. *)
Lemma drop_ok k m own :
  owns (buffers (mk_kind k) ++ own) m ->
  let m' := mem_drop k m in
  owns own m' /\ leftovers m' = leftovers m /\
  forall a, ~ In a (buffers (mk_kind k)) -> nth_error m' a = nth_error m a.
Proof.
  intros O. unfold mem_drop. cbv zeta.
  destruct (fold_wipe (buffers (mk_kind k)) m _ O (incl_appl _ (incl_refl _))) as (O1 & L1 & W & K1).
  destruct (fold_free _ _ _ O1 W) as (O2 & L2 & K2).
  split; [exact O2|]. split; [congruence|]. intros a N. now rewrite K2, K1.
Qed.

(** ** The whole store *)
Definition owned (vars : list (option mem_key)) : list nat :=
  flat_map (fun o => match o with Some k => buffers (mk_kind k) | None => [] end) vars.
Lemma owned_app v w : owned (v ++ w) = owned v ++ owned w.
Proof. apply flat_map_app. Qed.
Lemma owned_in v k a : In (Some k) v -> In a (buffers (mk_kind k)) -> In a (owned v).
Proof. intros I J. apply in_flat_map. now exists (Some k). Qed.

Definition good (s : store) (values : list (option privkey)) (gone : list bytes) : Prop :=
  owns (owned (fst s)) (snd s) /\ map (option_map (load (snd s))) (fst s) = values /\
  Permutation (leftovers (snd s)) (filter (fun b => negb (zeros b)) gone).

Lemma load_all vars m m' :
  (forall a, In a (owned vars) -> nth_error m' a = nth_error m a) ->
  map (option_map (load m')) vars = map (option_map (load m)) vars.
Proof.
  intros H. apply map_ext_in. intros [k|] I; [|reflexivity]. cbn. f_equal. apply load_ext.
  intros a J. apply H. eapply owned_in; eauto.
Qed.

Lemma set_var_split {A} (v1 : list A) x v2 y : set_var (length v1) y (v1 ++ x :: v2) = v1 ++ y :: v2.
Proof.
  unfold set_var. rewrite firstn_app, firstn_all, Nat.sub_diag. cbn [firstn]. rewrite app_nil_r. f_equal. f_equal.
  replace (S (length v1)) with (length (v1 ++ [x])) by (rewrite app_length; cbn; lia).
  change (v1 ++ x :: v2) with (v1 ++ [x] ++ v2). rewrite app_assoc, skipn_app, skipn_all, Nat.sub_diag. reflexivity.
Qed.

(** Replacing an optional buffer of a key: [rest] are its others. *)
Lemma replace_ok c old a m m1 rest own :
  owns (opt_list old ++ rest ++ own) m -> alloc c m = (a, m1) ->
  let m2 := free_opt old m1 in
  owns (a :: rest ++ own) m2 /\ contents m2 a = c /\
  Permutation (leftovers m2) (filter (fun b => negb (zeros b)) (opt_list (option_map (contents m) old)) ++ leftovers m) /\
  (forall x, In x (rest ++ own) -> nth_error m2 x = nth_error m x).
Proof.
  intros O E. destruct (alloc_ok _ _ _ _ E) as (G & C & L). unfold alloc in E. injection E as Ea Em.
  pose proof G as (GO & GL & GK). destruct old as [o|]; cbn [opt_list option_map free_opt List.app] in *; cbv zeta.
  - assert (Lo : live_at m o) by (apply O; now left).
    pose proof (live_lt _ _ Lo) as Lt. destruct Lo as [co Eo].
    assert (D : o <> a) by lia.
    assert (Eo1 : nth_error m1 o = Some (mkBlock true co)) by (rewrite GK by exact Lt; exact Eo).
    assert (Co : contents m o = co) by (unfold contents; now rewrite Eo).
    assert (U : forall x, x <> o -> nth_error (update o free_block m1) x = nth_error m1 x).
    { intros x N. rewrite nth_update. destruct (Nat.eqb_spec o x); [congruence|reflexivity]. }
    split; [|split; [|split]].
    + apply (owns_free o). eapply owns_perm; [|apply GO, O]. apply perm_swap.
    + rewrite (contents_ext _ _ _ (U a (not_eq_sym D))). exact C.
    + rewrite Co, <- GL. apply leftovers_free, Eo1.
    + intros x I. destruct O as [N O]. inversion N as [|? ? No _]; subst.
      rewrite U by (intros ->; contradiction). apply GK. apply live_lt, O. now right.
  - split; [apply GO, O|]. split; [exact C|]. split; [rewrite GL; cbn; reflexivity|].
    intros x I. apply GK. apply live_lt. now apply O.
Qed.

Lemma good_change i k vars m values gone k' m' now f :
  nth_error vars i = Some (Some k) -> good (vars, m) values gone ->
  (forall own, owns (buffers (mk_kind k) ++ own) m ->
     owns (match k' with Some k' => buffers (mk_kind k') | None => [] end ++ own) m' /\
     option_map (load m') k' = f (load m k) /\
     Permutation (leftovers m') (filter (fun b => negb (zeros b)) now ++ leftovers m) /\
     forall x, In x own -> nth_error m' x = nth_error m x) ->
  nth_error values i = Some (Some (load m k)) /\
  good (set_var i k' vars, m') (set_var i (f (load m k)) values) (gone ++ now).
Proof.
  intros E (O & V & P) H. cbn [fst snd] in *.
  destruct (nth_error_split _ _ E) as (v1 & v2 & -> & <-). rewrite owned_app in O.
  change (Some k :: v2) with ([Some k] ++ v2) in *. rewrite owned_app in O. cbn [owned flat_map] in O. rewrite app_nil_r in O.
  destruct (H (owned v1 ++ owned v2)) as (O' & V' & P' & K).
  { eapply owns_perm; [|exact O]. rewrite !app_assoc. apply Permutation_app_tail, Permutation_app_comm. }
  rewrite map_app in V. cbn [map List.app option_map] in V. subst values.
  rewrite nth_error_app2, map_length, Nat.sub_diag by (rewrite map_length; lia).
  split; [reflexivity|]. cbn [List.app]. rewrite set_var_split.
  rewrite <- (map_length (option_map (load m)) v1) at 1. rewrite set_var_split.
  unfold good. cbn [fst snd]. split; [|split].
  - rewrite owned_app. change (k' :: v2) with ([k'] ++ v2). rewrite owned_app.
    eapply owns_perm; [|exact O']. cbn [owned flat_map]. rewrite app_nil_r.
    rewrite !app_assoc. apply Permutation_app_tail, Permutation_app_comm.
  - rewrite map_app. cbn [map]. rewrite V'. f_equal; [|f_equal]; apply load_all; intros a I; apply K, in_or_app; auto.
  - rewrite P', P, filter_app. apply Permutation_app_comm.
Qed.

Lemma good_new k vars m values gone :
  good (vars, m) values gone ->
  good (let '(k', m') := place k m in (vars ++ [Some k'], m')) (values ++ [Some k]) gone.
Proof.
  intros (O & V & P). cbn [fst snd] in *. destruct (place k m) as [k' m'] eqn:E.
  destruct (place_ok _ _ _ _ E) as [(GO & GL & GK) Ld]. unfold good. cbn [fst snd]. split; [|split].
  - rewrite owned_app. cbn [owned flat_map]. rewrite app_nil_r. eapply owns_perm; [apply Permutation_app_comm|]. apply GO, O.
  - rewrite map_app. cbn [map option_map]. rewrite Ld. f_equal. rewrite <- V. apply load_all. intros a I. apply GK.
    apply live_lt, O, I.
  - now rewrite GL.
Qed.

(** Facts about derived debugging output: every printed value can be cut off again. *)
From Verif Require Import Base BaseFacts Str KeyType PubKeyType PrivKey AllowedSigner Generate Debug SpecWire
  SpecSigner SpecDebug Utf8Facts StrFacts CutFacts FileFacts FidoFacts ShowFacts.

(** ** Hexadecimal *)
Definition hex_digit (b : byte) : Prop := (48 <= b2n b <= 57 \/ 97 <= b2n b <= 102)%N.
Definition hex_val (b : byte) : N := (if b2n b <? 58 then b2n b - 48 else b2n b - 87)%N.
Definition hexv (l : bytes) : N := fold_left (fun a b => a * 16 + hex_val b)%N l 0%N.
Lemma hex_char_ok v : (v < 16)%N -> hex_digit (hex_char v) /\ hex_val (hex_char v) = v.
Proof.
  intros H. unfold hex_char, hex_digit, hex_val. destruct (N.ltb_spec v 10).
  - rewrite b2n_n2b. rewrite N.mod_small by lia. split; [lia|]. destruct (N.ltb_spec (48 + v) 58); lia.
  - rewrite b2n_n2b. rewrite N.mod_small by lia. split; [lia|]. destruct (N.ltb_spec (87 + v) 58); lia.
Qed.
Lemma hexv_app a b : hexv (a ++ [b]) = (hexv a * 16 + hex_val b)%N.
Proof. unfold hexv. rewrite fold_left_app. reflexivity. Qed.
Lemma hex_aux_spec f : forall n acc, (n < 16 ^ N.of_nat (S f))%N ->
  exists ds, hex_aux (S f) n acc = ds ++ acc /\ Forall hex_digit ds /\ hexv ds = n.
Proof.
  induction f as [|f IH]; intros n acc H; cbn [hex_aux].
  - change (16 ^ N.of_nat 1)%N with 16%N in H. replace (n <? 16)%N with true by lia.
    rewrite N.mod_small by lia. destruct (hex_char_ok n H) as [D V]. exists [hex_char n]. split; [reflexivity|]. split; [auto|].
    unfold hexv. cbn [fold_left]. lia.
  - destruct (N.ltb_spec n 16) as [L|L].
    + rewrite N.mod_small by lia. destruct (hex_char_ok n L) as [D V]. exists [hex_char n]. split; [reflexivity|]. split; [auto|].
      unfold hexv. cbn [fold_left]. lia.
    + assert (M : (n mod 16 < 16)%N) by (apply N.mod_lt; lia). destruct (hex_char_ok _ M) as [D V].
      assert (Hq : (n / 16 < 16 ^ N.of_nat (S f))%N).
      { apply N.div_lt_upper_bound; [lia|]. replace (16 * 16 ^ N.of_nat (S f))%N with (16 ^ N.of_nat (S (S f)))%N; [exact H|].
        rewrite (Nat2N.inj_succ (S f)), N.pow_succ_r'. reflexivity. }
      destruct (IH (n / 16)%N (hex_char (n mod 16) :: acc) Hq) as (ds & E & F & Hv). exists (ds ++ [hex_char (n mod 16)]).
      split; [rewrite <- app_assoc; exact E|]. split; [apply Forall_app; auto|]. rewrite hexv_app, Hv, V.
      rewrite (N.div_mod n 16) at 3 by lia. lia.
Qed.
Lemma hex_spec n : Forall hex_digit (hex n) /\ hexv (hex n) = n.
Proof.
  unfold hex. destruct (hex_aux_spec (N.to_nat (N.size n)) n []) as (ds & E & F & V).
  - rewrite Nat2N.inj_succ, N2Nat.id. pose proof (N.size_gt n). apply N.lt_le_trans with (2 ^ N.size n)%N; [lia|].
    apply N.le_trans with (16 ^ N.size n)%N; [apply N.pow_le_mono_l; lia|apply N.pow_le_mono_r; lia].
  - rewrite E, app_nil_r. auto.
Qed.
Lemma unicode_cut c d r s : dbg_unicode c ++ r = dbg_unicode d ++ s -> c = d /\ r = s.
Proof.
  unfold dbg_unicode. intros E. cbn [List.app] in E. injection E as E. rewrite <- !app_assoc in E.
  assert (D : forall n, ~ In x7d (hex n)).
  { intros n H. destruct (hex_spec n) as [F _]. rewrite Forall_forall in F. apply F in H. vm_compute in H. intuition congruence. }
  change (hex c ++ x7d :: r = hex d ++ x7d :: s) in E.
  apply split_at in E; auto. destruct E as [E ->]. split; [|reflexivity].
  rewrite <- (proj2 (hex_spec c)), <- (proj2 (hex_spec d)), E. reflexivity.
Qed.

(** ** Characters *)
Definition dbg_char (p : N -> bool) (c : N) (bs : bytes) : bytes :=
  if (c <? 128)%N then match bs with a :: _ => dbg_ascii a | [] => [] end else dbg_wide p c bs.
Lemma dbg_body_char p c bs l : utf8_char c bs -> dbg_body p (bs ++ l) = dbg_char p c bs ++ dbg_body p l.
Proof.
  intros H. destruct H as [a H|x a b H1 H2 -> H4|x a b c H1 H2 H3 -> H5 H6|x a b c d H1 H2 H3 H4 -> H6 H7];
    change Byte.to_N with b2n in *; unfold dbg_char; cbn [List.app dbg_body].
  - replace (b2n a <? 128)%N with true by lia. reflexivity.
  - replace (b2n a <? 128)%N with false by lia. replace (b2n a <? 224)%N with true by lia.
    rewrite (proj2 (N.ltb_ge _ 128)) by lia. reflexivity.
  - replace (b2n a <? 128)%N with false by lia. replace (b2n a <? 224)%N with false by lia. replace (b2n a <? 240)%N with true by lia.
    rewrite (proj2 (N.ltb_ge _ 128)) by lia. reflexivity.
  - replace (b2n a <? 128)%N with false by lia. replace (b2n a <? 224)%N with false by lia. replace (b2n a <? 240)%N with false by lia.
    rewrite (proj2 (N.ltb_ge _ 128)) by lia. reflexivity.
Qed.

(** The four forms a character can take. *)
Definition short_escape (a e : byte) : Prop :=
  In (a, e) [(x00, x30); (x09, x74); (x0a, x6e); (x0d, x72); (x22, x22); (x5c, x5c)].
Inductive char_form (c : N) (bs : bytes) : bytes -> Prop :=
| CF_plain a : bs = [a] -> (32 <= b2n a <= 126)%N -> a <> x22 -> a <> x5c -> char_form c bs [a]
| CF_short a e : bs = [a] -> short_escape a e -> char_form c bs [x5c; e]
| CF_code : char_form c bs (dbg_unicode c)
| CF_wide a r : bs = a :: r -> (128 <= b2n a)%N -> char_form c bs bs.
Lemma ascii_form a : (b2n a < 128)%N -> char_form (b2n a) [a] (dbg_ascii a).
Proof.
  unfold dbg_ascii, short_escape. intros _.
  repeat match goal with |- context [(b2n a =? ?n)%N] =>
    let E := fresh "E" in destruct (N.eqb_spec (b2n a) n) as [E|E];
    [eapply CF_short; [reflexivity|]; assert (A : a = n2b n) by (rewrite <- E, n2b_b2n; reflexivity); subst a; vm_compute; tauto|] end.
  destruct ((32 <=? b2n a)%N && (b2n a <=? 126)%N) eqn:R.
  - apply andb_true_iff in R as [R1 R2]. apply CF_plain; [reflexivity|lia| |]; intros ->; vm_compute in E3, E4; congruence.
  - apply CF_code.
Qed.
Lemma char_forms p c bs : utf8_char c bs -> char_form c bs (dbg_char p c bs).
Proof.
  intros H. unfold dbg_char. destruct (N.ltb_spec c 128) as [L|L].
  - destruct H as [a H|x a b H1 H2 -> H4|x a b c H1 H2 H3 -> H5 H6|x a b c d H1 H2 H3 H4 -> H6 H7];
      change Byte.to_N with b2n in *; try (exfalso; lia). apply ascii_form. exact H.
  - unfold dbg_wide. destruct (p c); [|apply CF_code].
    destruct H as [a H|x a b H1 H2 E H4|x a b c H1 H2 H3 E H5 H6|x a b c d H1 H2 H3 H4 E H6 H7];
      change Byte.to_N with b2n in *; [exfalso; lia| | |]; (eapply CF_wide; [reflexivity|lia]).
Qed.
Lemma char_same c bs ds : utf8_char c bs -> utf8_char c ds -> bs = ds.
Proof.
  intros H H'. destruct H as [a H|x a b H1 H2 -> H4|x a b c H1 H2 H3 -> H5 H6|x a b c d H1 H2 H3 H4 -> H6 H7];
    inversion H'; subst; unfold cbyte in *; change Byte.to_N with b2n in *;
    repeat match goal with b : byte |- _ => lazymatch goal with H : (b2n b < 256)%N |- _ => fail | _ => pose proof (b2n_lt b) end end;
    try (exfalso; lia);
    repeat f_equal; apply b2n_inj; lia.
Qed.
Lemma char_cut p c bs d ds r s : utf8_char c bs -> utf8_char d ds ->
  dbg_char p c bs ++ r = dbg_char p d ds ++ s -> bs = ds /\ r = s.
Proof.
  intros Hc Hd. pose proof (char_forms p _ _ Hc) as F. pose proof (char_forms p _ _ Hd) as G.
  destruct F as [a -> Ra Na1 Na2|a e -> Se| |a t Ea Ra]; destruct G as [b -> Rb Nb1 Nb2|b f -> Sf| |b u Eb Rb]; intros E.
  - injection E as -> ->. auto.
  - injection E as -> _. congruence.
  - injection E as -> _. destruct (Na2 eq_refl).
  - subst ds. injection E as -> _. lia.
  - injection E as <- _. congruence.
  - injection E as <- ->. split; [|reflexivity]. unfold short_escape in *. cbn [In] in *.
    destruct Se as [Q|[Q|[Q|[Q|[Q|[Q|[]]]]]]]; destruct Sf as [P|[P|[P|[P|[P|[P|[]]]]]]]; congruence.
  - exfalso. unfold dbg_unicode in E. injection E as -> _. unfold short_escape in Se. cbn [In] in Se.
    destruct Se as [Q|[Q|[Q|[Q|[Q|[Q|[]]]]]]]; congruence.
  - exfalso. subst ds. injection E as <- _. vm_compute in Rb. congruence.
  - exfalso. unfold dbg_unicode in E. injection E as <- _. destruct (Nb2 eq_refl).
  - exfalso. unfold dbg_unicode in E. injection E as <- _. unfold short_escape in Sf. cbn [In] in Sf.
    destruct Sf as [Q|[Q|[Q|[Q|[Q|[Q|[]]]]]]]; congruence.
  - apply unicode_cut in E as [-> ->]. split; [|reflexivity]. eapply char_same; eauto.
  - exfalso. subst ds. unfold dbg_unicode in E. injection E as <- _. vm_compute in Rb. congruence.
  - exfalso. subst bs. injection E as -> _. lia.
  - exfalso. subst bs. injection E as -> _. vm_compute in Ra. congruence.
  - exfalso. subst bs. unfold dbg_unicode in E. injection E as -> _. vm_compute in Ra. congruence.
  - symmetry in E. destruct (utf8_char_beginning _ _ Hc _ _ _ _ Hd E) as [-> _]. split; [reflexivity|]. apply app_inv_head in E. auto.
Qed.
Lemma char_not_quote p c bs r s : utf8_char c bs -> dbg_char p c bs ++ r <> x22 :: s.
Proof.
  intros H E. pose proof (char_forms p _ _ H) as F. destruct F as [a -> Ra N1 N2|a e -> Se| |a t -> Ra].
  - injection E as -> _. congruence.
  - discriminate.
  - discriminate.
  - injection E as -> _. vm_compute in Ra. congruence.
Qed.
Lemma body_cut p s : utf8_text s -> forall t r u, utf8_text t ->
  dbg_body p s ++ x22 :: r = dbg_body p t ++ x22 :: u -> s = t /\ r = u.
Proof.
  induction 1 as [|c bs l Hc Hl IH]; intros t r u Ht E.
  - destruct Ht as [|d ds m Hd Hm]; [injection E; auto|]. exfalso. rewrite (dbg_body_char p d) in E by exact Hd.
    rewrite <- app_assoc in E. symmetry in E. exact (char_not_quote _ _ _ _ _ Hd E).
  - rewrite (dbg_body_char p c) in E by exact Hc. rewrite <- app_assoc in E.
    destruct Ht as [|d ds m Hd Hm].
    + exfalso. exact (char_not_quote _ _ _ _ _ Hc E).
    + rewrite (dbg_body_char p d) in E by exact Hd. rewrite <- app_assoc in E. apply char_cut in E as [-> E]; auto.
      apply IH in E as [-> ->]; auto.
Qed.

(** ** Values *)
(** What can follow a value: a comma, a space or a closing bracket. *)
Definition stop (r : bytes) : Prop := exists c t, r = c :: t /\ (c = x2c \/ c = x20 \/ c = x29 \/ c = x5d).
Definition cuts (v w : bytes) : Prop := forall r s, stop r -> stop s -> v ++ r = w ++ s -> v = w /\ r = s.
Definition code {A} (P : A -> Prop) (f : A -> bytes) : Prop :=
  forall a b, P a -> P b -> cuts (f a) (f b) /\ (f a = f b -> a = b).
Lemma stop_comma r : stop (s2b ", " ++ r). Proof. eexists x2c, _. split; [reflexivity|auto]. Qed.
Lemma stop_brace r : stop (s2b " }" ++ r). Proof. eexists x20, _. split; [reflexivity|auto]. Qed.
Lemma stop_paren r : stop (s2b ")" ++ r). Proof. eexists x29, _. split; [reflexivity|auto]. Qed.
Lemma stop_bracket r : stop (s2b "]" ++ r). Proof. eexists x5d, _. split; [reflexivity|auto 6]. Qed.
Definition any {A} (_ : A) : Prop := True.

Lemma code_cut {A} (P : A -> Prop) f a b r s : code P f -> P a -> P b -> stop r -> stop s ->
  f a ++ r = f b ++ s -> a = b /\ r = s.
Proof. intros C Pa Pb R S E. destruct (C a b Pa Pb) as [K I]. destruct (K r s R S E) as [E' ->]. auto. Qed.
Lemma code_intro {A} (P : A -> Prop) f :
  (forall a b r s, P a -> P b -> stop r -> stop s -> f a ++ r = f b ++ s -> a = b /\ r = s) -> code P f.
Proof.
  intros H a b Pa Pb. split.
  - intros r s R S E. destruct (H a b r s Pa Pb R S E) as [-> ->]. auto.
  - intros E. apply (H a b (s2b ")") (s2b ")") Pa Pb (stop_paren []) (stop_paren [])). rewrite E. reflexivity.
Qed.

Definition numeric (b : byte) : Prop := digit b \/ b = x2d.
Lemma numeric_cut v w r s : Forall numeric v -> Forall numeric w -> stop r -> stop s -> v ++ r = w ++ s -> v = w /\ r = s.
Proof.
  intros V W (c & t & -> & Hc) (d & u & -> & Hd) E.
  destruct (split_unique numeric v c t w d u) as (-> & -> & ->); auto.
  - intros N. destruct Hc as [->|[->|[->| ->]]]; destruct N as [N|N]; try discriminate; vm_compute in N; intuition congruence.
  - intros N. destruct Hd as [->|[->|[->| ->]]]; destruct N as [N|N]; try discriminate; vm_compute in N; intuition congruence.
Qed.
Lemma decimal_numeric x t : decimal_text x t -> Forall numeric t.
Proof.
  intros (ds & D & _ & _ & [(_ & -> & _)|(_ & -> & _)]).
  - eapply Forall_impl; [|exact D]. unfold numeric. auto.
  - constructor; [right; reflexivity|]. eapply Forall_impl; [|exact D]. unfold numeric. auto.
Qed.
Lemma decimal_text_inj x y t : decimal_text x t -> decimal_text y t -> x = y.
Proof.
  intros (a & Da & _ & _ & Ha) (b & Db & _ & _ & Hb).
  destruct Ha as [(_ & Ea & Va)|(_ & Ea & Va)]; destruct Hb as [(_ & Eb & Vb)|(_ & Eb & Vb)]; subst.
  - lia.
  - exfalso. apply Forall_cons_iff in Da as [D _]. vm_compute in D. intuition congruence.
  - exfalso. apply Forall_cons_iff in Db as [D _]. vm_compute in D. intuition congruence.
  - injection Eb as Eb. subst. lia.
Qed.
Lemma code_decimal : code any decimal.
Proof.
  apply code_intro. intros a b r s _ _ R S E. pose proof (decimal_n a) as A. pose proof (decimal_n b) as B.
  apply numeric_cut in E as [E ->]; eauto using decimal_numeric. split; [|reflexivity]. rewrite E in A. eapply decimal_same; eauto.
Qed.
Lemma code_display_z : code any display_z.
Proof.
  apply code_intro. intros a b r s _ _ R S E. pose proof (display_z_decimal a) as A. pose proof (display_z_decimal b) as B.
  apply numeric_cut in E as [E ->]; eauto using decimal_numeric. split; [|reflexivity]. rewrite E in A. eapply decimal_text_inj; eauto.
Qed.
Lemma code_byte : code any (fun b => decimal (b2n b)).
Proof. apply code_intro. intros a b r s _ _ R S E. apply (code_cut _ _ _ _ _ _ code_decimal) in E as [E ->]; try exact I; auto using b2n_inj. Qed.
Lemma code_str p : code utf8_text (dbg_str p).
Proof.
  apply code_intro. unfold dbg_str. intros a b r s A B _ _ E. cbn [List.app] in E. injection E as E.
  rewrite <- !app_assoc in E. cbn [List.app] in E. apply body_cut in E; auto.
Qed.
Lemma code_bool : code any dbg_bool.
Proof. apply code_intro. intros [|] [|] r s _ _ _ _ E; try discriminate E; apply app_inv_head in E; auto. Qed.
Lemma code_option {A} (P : A -> Prop) f : code P f -> code (fun o => forall a, o = Some a -> P a) (dbg_option f).
Proof.
  intros C. apply code_intro. unfold dbg_option. intros [a|] [b|] r s Pa Pb R S E; try discriminate E.
  - rewrite <- !app_assoc in E. apply app_inv_head in E.
    apply (code_cut _ _ _ _ _ _ C) in E as [-> E]; auto using stop_paren. apply app_inv_head in E. auto.
  - apply app_inv_head in E. auto.
Qed.
Lemma join_more sep x l : join sep (x :: l) = x ++ concat (map (fun y => sep ++ y) l).
Proof.
  revert x; induction l as [|y l IH]; intros x; [cbn [join map concat]; rewrite app_nil_r; reflexivity|].
  change (join sep (x :: y :: l)) with (x ++ sep ++ join sep (y :: l)). rewrite IH. cbn [map concat].
  rewrite <- !app_assoc. reflexivity.
Qed.
Definition listing (l : bytes) : bytes := concat (map (fun y => s2b ", " ++ y) (map (fun b => decimal (b2n b)) l)).
Lemma listing_stop l r : stop (listing l ++ s2b "]" ++ r).
Proof.
  destruct l as [|b l]; [apply stop_bracket|]. unfold listing. cbn [map concat]. rewrite <- !app_assoc. apply stop_comma.
Qed.
Lemma listing_cut l : forall m r s, listing l ++ s2b "]" ++ r = listing m ++ s2b "]" ++ s -> l = m /\ r = s.
Proof.
  induction l as [|b l IH]; intros [|c m] r s E.
  - do 2 apply app_inv_head in E. auto.
  - discriminate E.
  - discriminate E.
  - unfold listing in E. cbn [map concat] in E. rewrite <- !app_assoc in E. apply app_inv_head in E.
    apply (code_cut _ _ _ _ _ _ code_byte) in E as [-> E]; try exact I; try apply listing_stop. apply IH in E as [-> ->]. auto.
Qed.
Lemma dbg_vec_cons b l : dbg_vec (b :: l) = s2b "[" ++ decimal (b2n b) ++ listing l ++ s2b "]".
Proof. unfold dbg_vec. cbn [map]. rewrite join_more, <- app_assoc. reflexivity. Qed.
Lemma decimal_no_bracket n r s : decimal n ++ r <> s2b "]" ++ s.
Proof.
  intros E. destruct (decimal_digits _ _ (decimal_n n)) as (D & N & _). destruct (decimal n) as [|x t]; [congruence|].
  apply Forall_cons_iff in D as [D _]. injection E as -> _. vm_compute in D. intuition congruence.
Qed.
Lemma code_vec : code any dbg_vec.
Proof.
  apply code_intro. intros [|a l] [|b m] r s _ _ R S E; rewrite ?dbg_vec_cons in E; change (dbg_vec []) with (s2b "[" ++ s2b "]") in E;
    rewrite <- !app_assoc in E; apply app_inv_head in E.
  - apply app_inv_head in E. auto.
  - exfalso. symmetry in E. exact (decimal_no_bracket _ _ _ E).
  - exfalso. exact (decimal_no_bracket _ _ _ E).
  - apply (code_cut _ _ _ _ _ _ code_byte) in E as [-> E]; try exact I; try apply listing_stop.
    apply listing_cut in E as [-> ->]. auto.
Qed.

(** ** Structures *)
Definition field_text (f : bytes * bytes) : bytes := fst f ++ s2b ": " ++ snd f.
Definition more_fields (l : list (bytes * bytes)) : bytes := concat (map (fun y => s2b ", " ++ y) (map field_text l)).
Lemma dbg_struct_cons name f l :
  dbg_struct name (f :: l) = name ++ s2b " { " ++ field_text f ++ more_fields l ++ s2b " }".
Proof. unfold dbg_struct. cbn [map]. rewrite join_more, <- app_assoc. reflexivity. Qed.
Lemma more_stop l r : stop (more_fields l ++ s2b " }" ++ r).
Proof.
  destruct l as [|f l]; [apply stop_brace|]. unfold more_fields. cbn [map concat]. rewrite <- !app_assoc. apply stop_comma.
Qed.
Definition same_field (f g : bytes * bytes) : Prop := fst f = fst g /\ cuts (snd f) (snd g).
Lemma field_cut f g r s : same_field f g -> stop r -> stop s -> field_text f ++ r = field_text g ++ s -> snd f = snd g /\ r = s.
Proof.
  intros [N C] R S E. unfold field_text in E. rewrite N in E. rewrite <- !app_assoc in E. do 2 apply app_inv_head in E. auto.
Qed.
Lemma more_cut l : forall m r s, Forall2 same_field l m -> more_fields l ++ s2b " }" ++ r = more_fields m ++ s2b " }" ++ s ->
  map snd l = map snd m /\ r = s.
Proof.
  induction l as [|f l IH]; intros m r s F E; inversion F as [|? g ? m' Hfg Hlm]; subst.
  - do 2 apply app_inv_head in E. auto.
  - unfold more_fields in E. cbn [map concat] in E. rewrite <- !app_assoc in E. apply app_inv_head in E.
    apply field_cut in E as [V E]; auto; try apply more_stop. apply IH in E as [W ->]; auto. cbn [map]. rewrite V, W. auto.
Qed.
Lemma struct_cut name l m r s : Forall2 same_field l m -> l <> [] ->
  dbg_struct name l ++ r = dbg_struct name m ++ s -> map snd l = map snd m /\ r = s.
Proof.
  intros F Hl E. destruct F as [|f g l m Hfg F]; [congruence|]. rewrite !dbg_struct_cons in E. rewrite <- !app_assoc in E.
  do 2 apply app_inv_head in E. apply field_cut in E as [V E]; auto using more_stop. apply more_cut in E as [W ->]; auto.
  cbn [map]. rewrite V, W. auto.
Qed.
Lemma same_code {A} (P : A -> Prop) f n a b : code P f -> P a -> P b -> same_field (n, f a) (n, f b).
Proof. intros C Pa Pb. split; [reflexivity|]. apply (C a b Pa Pb). Qed.
Lemma code_eq {A} (P : A -> Prop) f a b : code P f -> P a -> P b -> f a = f b -> a = b.
Proof. intros C Pa Pb. apply (C a b Pa Pb). Qed.
Lemma code_text_option p : code text_option (dbg_option (dbg_str p)).
Proof. exact (code_option _ _ (code_str p)). Qed.
Lemma code_vec_option : code any (dbg_option dbg_vec).
Proof.
  intros a b _ _. apply (code_option _ _ code_vec); intros; exact I.
Qed.
Lemma tuple_cut {A} (P : A -> Prop) f name a b r s : code P f -> P a -> P b ->
  dbg_tuple name (f a) ++ r = dbg_tuple name (f b) ++ s -> a = b /\ r = s.
Proof.
  intros C Pa Pb E. unfold dbg_tuple in E. rewrite <- !app_assoc in E. do 2 apply app_inv_head in E.
  apply (code_cut _ _ _ _ _ _ C) in E as [-> E]; auto using stop_paren. apply app_inv_head in E. auto.
Qed.
Lemma cons_eq {A} (a b : A) l m : a :: l = b :: m -> a = b /\ l = m.
Proof. intros E; injection E; auto. Qed.
Ltac by_code C := eapply same_code; [exact C|first [assumption|exact I]|first [assumption|exact I]].
(** From equal lists of field texts, equal fields. *)
Ltac take C H := let V := fresh "V" in apply cons_eq in H as [V H]; apply (code_eq _ _ _ _ C) in V; [|first [assumption|exact I]|first [assumption|exact I]].

Lemma code_kt_kind : code any dbg_kt_kind.
Proof.
  apply code_intro. intros a b r s _ _ (c & t & -> & Hc) (d & u & -> & Hd) E.
  destruct a, b; try discriminate E; try (apply app_inv_head in E; auto);
    exfalso; injection E; intros; subst; intuition discriminate.
Qed.
Lemma code_curve_kind : code any dbg_curve_kind.
Proof. apply code_intro. intros a b r s _ _ _ _ E. destruct a, b; try discriminate E; apply app_inv_head in E; auto. Qed.
Lemma code_key_type p : code type_texts (dbg_key_type p).
Proof.
  apply code_intro. intros [a1 a2 a3 a4 a5 a6] [b1 b2 b3 b4 b5 b6] r s (A1 & A2 & A3) (B1 & B2 & B3) _ _ E.
  unfold dbg_key_type in E. cbn in A1, A2, A3, B1, B2, B3. cbn [kt_name kt_short_name kt_is_cert kt_is_sk kt_k kt_plain] in E.
  apply struct_cut in E as [E ->]; [|repeat apply Forall2_cons; try apply Forall2_nil|discriminate].
  - cbn [map snd] in E. take (code_str p) E. take (code_str p) E. take code_bool E. take code_bool E. take code_kt_kind E.
    take (code_str p) E. subst. auto.
  - by_code (code_str p).
  - by_code (code_str p).
  - by_code code_bool.
  - by_code code_bool.
  - by_code code_kt_kind.
  - by_code (code_str p).
Qed.
Lemma code_curve p : code (fun c => utf8_text (c_identifier c)) (dbg_curve p).
Proof.
  apply code_intro. intros [a1 a2] [b1 b2] r s A B _ _ E. unfold dbg_curve in E. cbn in A, B. cbn [c_kind c_identifier] in E.
  apply struct_cut in E as [E ->]; [|repeat apply Forall2_cons; try apply Forall2_nil|discriminate].
  - cbn [map snd] in E. take code_curve_kind E. take (code_str p) E. subst. auto.
  - by_code code_curve_kind.
  - by_code (code_str p).
Qed.
Ltac fields E := apply struct_cut in E as [E ->]; [|repeat apply Forall2_cons; try apply Forall2_nil|discriminate].
(** The structures inside the variants, as functions of one argument. *)
Definition d_rsa_pub (x : bytes * bytes) : bytes :=
  dbg_struct (s2b "RsaPublicKey") [(s2b "e", dbg_vec (fst x)); (s2b "n", dbg_vec (snd x))].
Definition d_ecdsa_pub p (x : curve * bytes * option bytes) : bytes :=
  dbg_struct (s2b "EcdsaPublicKey")
    [(s2b "curve", dbg_curve p (fst (fst x))); (s2b "key", dbg_vec (snd (fst x)));
     (s2b "sk_application", dbg_option (dbg_str p) (snd x))].
Definition d_ed_pub p (x : bytes * option bytes) : bytes :=
  dbg_struct (s2b "Ed25519PublicKey")
    [(s2b "key", dbg_vec (fst x)); (s2b "sk_application", dbg_option (dbg_str p) (snd x))].
Lemma code_rsa_pub : code any d_rsa_pub.
Proof.
  apply code_intro. intros [a1 a2] [b1 b2] r s _ _ _ _ E. unfold d_rsa_pub in E. cbn [fst snd] in E. fields E.
  - cbn [map snd] in E. take code_vec E. take code_vec E. subst. auto.
  - by_code code_vec.
  - by_code code_vec.
Qed.
Lemma code_ecdsa_pub p :
  code (fun x => utf8_text (c_identifier (fst (fst x))) /\ text_option (snd x)) (d_ecdsa_pub p).
Proof.
  apply code_intro. intros [[a1 a2] a3] [[b1 b2] b3] r s [A1 A2] [B1 B2] _ _ E. unfold d_ecdsa_pub in E. cbn [fst snd] in *. fields E.
  - cbn [map snd] in E. take (code_curve p) E. take code_vec E. take (code_text_option p) E. subst. auto.
  - by_code (code_curve p).
  - by_code code_vec.
  - by_code (code_text_option p).
Qed.
Lemma code_ed_pub p : code (fun x => text_option (snd x)) (d_ed_pub p).
Proof.
  apply code_intro. intros [a1 a2] [b1 b2] r s A B _ _ E. unfold d_ed_pub in E. cbn [fst snd] in *. fields E.
  - cbn [map snd] in E. take code_vec E. take (code_text_option p) E. subst. auto.
  - by_code code_vec.
  - by_code (code_text_option p).
Qed.
Definition kind_texts (k : pubkey_kind) : Prop :=
  match k with
  | PkRsa _ _ => True
  | PkEcdsa c _ app => utf8_text (c_identifier c) /\ text_option app
  | PkEd25519 _ app => text_option app
  end.
Lemma code_pubkey_kind p : code kind_texts (dbg_pubkey_kind p).
Proof.
  apply code_intro. intros [a1 a2|a1 a2 a3|a1 a2] [b1 b2|b1 b2 b3|b1 b2] r s A B _ _ E; try discriminate E; cbn [kind_texts] in A, B.
  - apply (tuple_cut _ _ _ (a1, a2) (b1, b2) _ _ code_rsa_pub I I) in E as [E ->].
    injection E as -> ->. auto.
  - apply (tuple_cut _ _ _ (a1, a2, a3) (b1, b2, b3) _ _ (code_ecdsa_pub p) A B) in E as [E ->].
    injection E as -> -> ->. auto.
  - apply (tuple_cut _ _ _ (a1, a2) (b1, b2) _ _ (code_ed_pub p) A B) in E as [E ->].
    injection E as -> ->. auto.
Qed.
Lemma code_pubkey p : code pub_texts (dbg_pubkey p).
Proof.
  apply code_intro. intros [a1 a2 a3] [b1 b2 b3] r s (A1 & A2 & A3) (B1 & B2 & B3) _ _ E. unfold dbg_pubkey in E.
  cbn [pk_type pk_kind pk_comment] in *. change (kind_texts a2) in A3. change (kind_texts b2) in B3. fields E.
  - cbn [map snd] in E. take (code_key_type p) E. take (code_pubkey_kind p) E. take (code_text_option p) E. subst. auto.
  - by_code (code_key_type p).
  - by_code (code_pubkey_kind p).
  - by_code (code_text_option p).
Qed.

Definition hw_texts (h : hw_priv) : Prop := text_option (hw_pin h) /\ text_option (hw_device_path h).
Lemma code_hw p name : code hw_texts (dbg_hw p name).
Proof.
  apply code_intro. intros [a1 a2 a3 a4 a5] [b1 b2 b3 b4 b5] r s [A1 A2] [B1 B2] _ _ E. unfold dbg_hw in E.
  cbn [hw_flags hw_handle hw_reserved hw_pin hw_device_path] in *. fields E.
  - cbn [map snd] in E. take code_byte E. take code_vec E. take code_vec E. take (code_text_option p) E. take (code_text_option p) E.
    subst. auto.
  - exact (same_code any (fun b => decimal (b2n b)) _ a1 b1 code_byte I I).
  - by_code code_vec.
  - by_code code_vec.
  - by_code (code_text_option p).
  - by_code (code_text_option p).
Qed.
Definition d_rsa_priv (r : rsa_priv) : bytes :=
  dbg_struct (s2b "RsaPrivateKey")
    [(s2b "n", dbg_vec (rp_n r)); (s2b "e", dbg_vec (rp_e r)); (s2b "d", dbg_vec (rp_d r));
     (s2b "coefficient", dbg_vec (rp_coefficient r)); (s2b "p", dbg_vec (rp_p r)); (s2b "q", dbg_vec (rp_q r));
     (s2b "exp", dbg_option dbg_vec (rp_exp r)); (s2b "exq", dbg_option dbg_vec (rp_exq r))].
Definition d_ecdsa_priv p (x : curve * bytes) : bytes :=
  dbg_struct (s2b "EcdsaPrivateKey") [(s2b "curve", dbg_curve p (fst x)); (s2b "key", dbg_vec (snd x))].
Definition d_ed_priv (key : bytes) : bytes := dbg_struct (s2b "Ed25519PrivateKey") [(s2b "key", dbg_vec key)].
Lemma code_rsa_priv : code any d_rsa_priv.
Proof.
  apply code_intro. intros [a1 a2 a3 a4 a5 a6 a7 a8] [b1 b2 b3 b4 b5 b6 b7 b8] r s _ _ _ _ E. unfold d_rsa_priv in E.
  cbn [rp_n rp_e rp_d rp_coefficient rp_p rp_q rp_exp rp_exq] in E. fields E.
  - cbn [map snd] in E. do 6 take code_vec E. take code_vec_option E. take code_vec_option E. subst. auto.
  - by_code code_vec.
  - by_code code_vec.
  - by_code code_vec.
  - by_code code_vec.
  - by_code code_vec.
  - by_code code_vec.
  - by_code code_vec_option.
  - by_code code_vec_option.
Qed.
Lemma code_ecdsa_priv p : code (fun x => utf8_text (c_identifier (fst x))) (d_ecdsa_priv p).
Proof.
  apply code_intro. intros [a1 a2] [b1 b2] r s A B _ _ E. unfold d_ecdsa_priv in E. cbn [fst snd] in *. fields E.
  - cbn [map snd] in E. take (code_curve p) E. take code_vec E. subst. auto.
  - by_code (code_curve p).
  - by_code code_vec.
Qed.
Lemma code_ed_priv : code any d_ed_priv.
Proof.
  apply code_intro. intros a b r s _ _ _ _ E. unfold d_ed_priv in E. fields E.
  - cbn [map snd] in E. take code_vec E. subst. auto.
  - by_code code_vec.
Qed.
Definition priv_kind_texts (k : priv_kind) : Prop :=
  match k with
  | SkRsa _ | SkEd25519 _ => True
  | SkEcdsa c _ => utf8_text (c_identifier c)
  | SkEcdsaSk h | SkEd25519Sk h => text_option (hw_pin h) /\ text_option (hw_device_path h)
  end.
Lemma code_priv_kind p : code priv_kind_texts (dbg_priv_kind p).
Proof.
  apply code_intro. intros a b r s A B _ _ E. destruct a as [a|a1 a2|a|a|a], b as [b|b1 b2|b|b|b]; try discriminate E; cbn [priv_kind_texts] in A, B.
  - apply (tuple_cut _ _ _ a b _ _ code_rsa_priv I I) in E as [-> ->]. auto.
  - apply (tuple_cut _ _ _ (a1, a2) (b1, b2) _ _ (code_ecdsa_priv p) A B) in E as [E ->].
    injection E as -> ->. auto.
  - apply (tuple_cut _ _ _ a b _ _ (code_hw p _) A B) in E as [-> ->]. auto.
  - apply (tuple_cut _ _ _ a b _ _ code_ed_priv I I) in E as [-> ->]. auto.
  - apply (tuple_cut _ _ _ a b _ _ (code_hw p _) A B) in E as [-> ->]. auto.
Qed.
Lemma code_privkey p : code priv_texts (dbg_privkey p).
Proof.
  apply code_intro. intros [a1 a2 a3 a4 a5] [b1 b2 b3 b4 b5] r s (A1 & A2 & A3 & A4) (B1 & B2 & B3 & B4) _ _ E. unfold dbg_privkey in E.
  cbn [sk_type sk_kind sk_pub sk_magic sk_comment] in *. change (priv_kind_texts a2) in A4. change (priv_kind_texts b2) in B4. fields E.
  - cbn [map snd] in E. take (code_key_type p) E. take (code_priv_kind p) E. take (code_pubkey p) E. take code_decimal E.
    take (code_str p) E. subst. auto.
  - by_code (code_key_type p).
  - by_code (code_priv_kind p).
  - by_code (code_pubkey p).
  - by_code code_decimal.
  - by_code (code_str p).
Qed.
Lemma code_attestation : code any dbg_attestation.
Proof.
  apply code_intro. intros [a1 a2 a3 a4 a5] [b1 b2 b3 b4 b5] r s _ _ _ _ E. unfold dbg_attestation in E.
  cbn [at_auth_data at_sig at_intermediate at_challenge at_alg] in E. fields E.
  - cbn [map snd] in E. do 4 take code_vec E. take code_display_z E. subst. auto.
  - by_code code_vec.
  - by_code code_vec.
  - by_code code_vec.
  - by_code code_vec.
  - by_code code_display_z.
Qed.
Lemma code_fido_key p : code (fun k => priv_texts (fk_private k)) (dbg_fido_key p).
Proof.
  apply code_intro. intros [a1 a2] [b1 b2] r s A B _ _ E. unfold dbg_fido_key in E. cbn [fk_private fk_attestation] in *. fields E.
  - cbn [map snd] in E. take (code_privkey p) E. take code_attestation E. subst. auto.
  - by_code (code_privkey p).
  - by_code code_attestation.
Qed.

(** ** What is in sight *)
Lemma vec_listed l : listed l (dbg_vec l).
Proof.
  destruct l as [|b l]; [reflexivity|]. rewrite dbg_vec_cons. cbn [listed].
  exists (decimal (b2n b)), (listing l ++ s2b "]"). split; [apply decimal_n|]. split; [|reflexivity].
  induction l as [|c l IH]; [constructor|].
  replace (listing (c :: l) ++ s2b "]") with (s2b ", " ++ decimal (b2n c) ++ (listing l ++ s2b "]")).
  - constructor; [apply decimal_n|exact IH].
  - unfold listing. cbn [map concat]. rewrite <- !app_assoc. reflexivity.
Qed.
Definition within (x t : bytes) : Prop := exists a b, t = a ++ x ++ b.
Lemma within_refl x : within x x. Proof. exists [], []. rewrite app_nil_r. reflexivity. Qed.
Lemma within_trans x y z : within x y -> within y z -> within x z.
Proof. intros (a & b & ->) (c & d & ->). exists (c ++ a), (b ++ d). rewrite <- !app_assoc. reflexivity. Qed.
Lemma within_join sep l : forall x, In x l -> within x (join sep l).
Proof.
  induction l as [|y l IH]; intros x H; [destruct H|]. destruct l as [|z l].
  - destruct H as [->|[]]. apply within_refl.
  - change (join sep (y :: z :: l)) with (y ++ sep ++ join sep (z :: l)). destruct H as [->|H].
    + exists [], (sep ++ join sep (z :: l)). reflexivity.
    + eapply within_trans; [exact (IH x H)|]. exists (y ++ sep), []. rewrite app_nil_r, <- app_assoc. reflexivity.
Qed.
Lemma within_struct name fs n v : In (n, v) fs -> within (n ++ s2b ": " ++ v) (dbg_struct name fs).
Proof.
  intros H. eapply within_trans.
  - apply (within_join (s2b ", ") (map (fun f => fst f ++ s2b ": " ++ snd f) fs)). apply in_map_iff. exists (n, v). split; [reflexivity|exact H].
  - unfold dbg_struct. exists (name ++ s2b " { "), (s2b " }"). rewrite <- !app_assoc. reflexivity.
Qed.
Lemma within_tuple name v : within v (dbg_tuple name v).
Proof. exists (name ++ s2b "("), (s2b ")"). unfold dbg_tuple. rewrite <- !app_assoc. reflexivity. Qed.
Lemma within_value name fs n v : In (n, v) fs -> within v (dbg_struct name fs).
Proof.
  intros H. eapply within_trans; [|exact (within_struct _ _ _ _ H)]. exists (n ++ s2b ": "), []. rewrite app_nil_r, <- app_assoc. reflexivity.
Qed.
Lemma kind_within p k : within (dbg_priv_kind p (sk_kind k)) (dbg_privkey p k).
Proof. unfold dbg_privkey. eapply within_value. right; left; reflexivity. Qed.
Lemma key_within p k : within (dbg_privkey p (fk_private k)) (dbg_fido_key p k).
Proof. unfold dbg_fido_key. eapply within_value. left; reflexivity. Qed.
Lemma secret_within p k n v : In (n, v) (secret_numbers k) -> within (n ++ s2b ": " ++ dbg_vec v) (dbg_priv_kind p k).
Proof.
  intros H. destruct k as [r|c key|h|key|h]; cbn [secret_numbers] in H; unfold dbg_priv_kind, dbg_hw;
    (eapply within_trans; [|apply within_tuple]); apply within_struct; cbn [In] in *;
    repeat match type of H with _ \/ _ => destruct H as [H|H] | False => destruct H end; injection H as <- <-; auto 12.
Qed.
Lemma shown_within text n v : within (n ++ s2b ": " ++ dbg_vec v) text -> shows text n v.
Proof.
  intros (a & b & ->). exists (dbg_vec v), a, b. split; [apply vec_listed|]. rewrite <- !app_assoc. reflexivity.
Qed.
Lemma pin_within p k s : pin_of k = Some s -> within (s2b "pin: Some(" ++ dbg_str p s ++ s2b ")") (dbg_priv_kind p k).
Proof.
  intros H. destruct k as [r|c key|h|key|h]; try discriminate H; cbn [pin_of] in H; unfold dbg_priv_kind, dbg_hw;
    (eapply within_trans; [|apply within_tuple]); rewrite H;
    (apply (within_struct _ _ (s2b "pin") (dbg_option (dbg_str p) (Some s))); cbn [In]; auto 8).
Qed.
Lemma plain_body p s : plain_ascii s -> dbg_body p s = s.
Proof.
  induction 1 as [|b s (R & Q & B) _ IH]; [reflexivity|]. cbn [dbg_body]. change Byte.to_N with b2n in R.
  replace (b2n b <? 128)%N with true by lia. rewrite IH. unfold dbg_ascii, quote, backslash in *.
  repeat match goal with |- context [(b2n b =? ?n)%N] =>
    let E := fresh "E" in destruct (N.eqb_spec (b2n b) n) as [E|E];
    [exfalso; first [lia | assert (A : b = n2b n) by (rewrite <- E, n2b_b2n; reflexivity); vm_compute in A; congruence]|] end.
  replace (32 <=? b2n b)%N with true by lia. replace (b2n b <=? 126)%N with true by lia. reflexivity.
Qed.

(** ** The whole text *)
Lemma hex_char_value v : (v < 16)%N -> hex_value (hex_char v) v.
Proof.
  intros H. unfold hex_char, hex_value. destruct (N.ltb_spec v 10); [left|right]; (split; [lia|]);
    change Byte.to_N with b2n; rewrite b2n_n2b, N.mod_small by lia; reflexivity.
Qed.
Lemma hex_aux_number f : forall n acc, (n < 16 ^ N.of_nat (S f))%N ->
  exists ds, hex_aux (S f) n acc = ds ++ acc /\ hex_number n ds.
Proof.
  induction f as [|f IH]; intros n acc H; cbn [hex_aux].
  - change (16 ^ N.of_nat 1)%N with 16%N in H. replace (n <? 16)%N with true by lia.
    rewrite N.mod_small by lia. exists [hex_char n]. split; [reflexivity|]. constructor. apply hex_char_value. exact H.
  - destruct (N.ltb_spec n 16) as [L|L].
    + rewrite N.mod_small by lia. exists [hex_char n]. split; [reflexivity|]. constructor. apply hex_char_value. exact L.
    + assert (M : (n mod 16 < 16)%N) by (apply N.mod_lt; lia).
      assert (Hq : (n / 16 < 16 ^ N.of_nat (S f))%N).
      { apply N.div_lt_upper_bound; [lia|]. replace (16 * 16 ^ N.of_nat (S f))%N with (16 ^ N.of_nat (S (S f)))%N; [exact H|].
        rewrite (Nat2N.inj_succ (S f)), N.pow_succ_r'. reflexivity. }
      destruct (IH (n / 16)%N (hex_char (n mod 16) :: acc) Hq) as (ds & E & F). exists (ds ++ [hex_char (n mod 16)]).
      split; [rewrite <- app_assoc; exact E|]. rewrite (N.div_mod n 16) at 1 by lia. constructor; [exact F| |apply hex_char_value, M].
      intros Z. apply N.div_small_iff in Z; lia.
Qed.
Lemma hex_is_number n : hex_number n (hex n).
Proof.
  unfold hex. destruct (hex_aux_number (N.to_nat (N.size n)) n []) as (ds & E & F).
  - rewrite Nat2N.inj_succ, N2Nat.id. pose proof (N.size_gt n). apply N.lt_le_trans with (2 ^ N.size n)%N; [lia|].
    apply N.le_trans with (16 ^ N.size n)%N; [apply N.pow_le_mono_l; lia|apply N.pow_le_mono_r; lia].
  - rewrite E, app_nil_r. exact F.
Qed.
Lemma char_is_shown p c bs : utf8_char c bs -> char_shown p c bs (dbg_char p c bs).
Proof.
  intros H. unfold dbg_char. destruct (N.ltb_spec c 128) as [L|L].
  - destruct H as [a H|x a b H1 H2 -> H4|x a b c H1 H2 H3 -> H5 H6|x a b c d H1 H2 H3 H4 -> H6 H7];
      change Byte.to_N with b2n in *; try (exfalso; lia). unfold dbg_ascii.
    repeat match goal with |- context [(b2n a =? ?n)%N] =>
      let E := fresh "E" in destruct (N.eqb_spec (b2n a) n) as [E|E];
      [rewrite E; apply CS_named; cbn [In]; auto 8|] end.
    assert (Hn : ~ named (b2n a)) by (unfold named; cbn [In]; intuition congruence).
    destruct (N.leb_spec 32 (b2n a)) as [R|R]; [destruct (N.leb_spec (b2n a) 126) as [R'|R']|]; cbn [andb].
    + apply CS_as_is; [exact Hn|lia].
    + apply CS_number; [exact Hn|lia|apply hex_is_number].
    + apply CS_number; [exact Hn|lia|apply hex_is_number].
  - assert (Hn : ~ named c) by (unfold named; cbn [In]; lia).
    unfold dbg_wide. destruct (p c) eqn:P; [apply CS_as_is|apply CS_number]; auto using hex_is_number.
Qed.
Lemma str_is_quoted p s : utf8_text s -> quoted p s (dbg_str p s).
Proof.
  intros H. exists (dbg_body p s). split; [|reflexivity]. induction H as [|c bs l Hc Hl IH]; [constructor|].
  rewrite (dbg_body_char p c) by exact Hc. econstructor; eauto using char_is_shown.
Qed.
Lemma option_is_shown (P : bytes -> Prop) (R : bytes -> bytes -> Prop) f o :
  (forall s, P s -> R s (f s)) -> (forall s, o = Some s -> P s) -> maybe R o (dbg_option f o).
Proof. intros H T. destruct o as [s|]; [|reflexivity]. exists (f s). split; [auto|reflexivity]. Qed.
Lemma text_is_shown p o : text_option o -> maybe (quoted p) o (dbg_option (dbg_str p) o).
Proof. apply option_is_shown. apply str_is_quoted. Qed.
Lemma vec_is_shown o : maybe listed o (dbg_option dbg_vec o).
Proof. apply (option_is_shown (fun _ => True)); auto using vec_listed. Qed.
Lemma bool_is_shown b : truth b (dbg_bool b). Proof. destruct b; reflexivity. Qed.
(** A structure's text with the labels and separators around the values. *)
Ltac head_of t := match t with ?f _ => head_of f | _ => t end.
Ltac layout := try (match goal with |- ?l = _ => let h := head_of l in unfold h at 1 end);
  unfold dbg_tuple, dbg_struct; cbn [map join fst snd]; rewrite <- ?app_assoc; reflexivity.
Ltac shown := repeat match goal with |- _ /\ _ => split end;
  solve [auto using str_is_quoted, text_is_shown, vec_is_shown, vec_listed, bool_is_shown, decimal_n, display_z_decimal | layout].
Lemma kt_kind_is_shown k : type_kind_text k (dbg_kt_kind k). Proof. destruct k; reflexivity. Qed.
Lemma type_is_shown p k : type_texts k -> type_text p k (dbg_key_type p k).
Proof.
  intros (A & B & C). exists (dbg_str p (kt_name k)), (dbg_str p (kt_short_name k)), (dbg_bool (kt_is_cert k)), (dbg_bool (kt_is_sk k)),
    (dbg_kt_kind (kt_k k)), (dbg_str p (kt_plain k)). pose proof (kt_kind_is_shown (kt_k k)). shown.
Qed.
Lemma curve_is_shown p c : utf8_text (c_identifier c) -> curve_text p c (dbg_curve p c).
Proof.
  intros A. exists (dbg_curve_kind (c_kind c)), (dbg_str p (c_identifier c)).
  split; [destruct (c_kind c); reflexivity|]. shown.
Qed.
Lemma pub_kind_is_shown p k : kind_texts k -> pub_kind_text p k (dbg_pubkey_kind p k).
Proof.
  destruct k as [e n|c key app|key app]; cbn [kind_texts pub_kind_text dbg_pubkey_kind].
  - intros _. exists (dbg_vec e), (dbg_vec n). shown.
  - intros [A B]. exists (dbg_curve p c), (dbg_vec key), (dbg_option (dbg_str p) app). split; [apply curve_is_shown, A|]. shown.
  - intros A. exists (dbg_vec key), (dbg_option (dbg_str p) app). shown.
Qed.
Lemma pub_is_shown p k : pub_texts k -> pub_text p k (dbg_pubkey p k).
Proof.
  intros (A & B & C). exists (dbg_key_type p (pk_type k)), (dbg_pubkey_kind p (pk_kind k)), (dbg_option (dbg_str p) (pk_comment k)).
  split; [apply type_is_shown, A|]. split; [apply pub_kind_is_shown, C|]. shown.
Qed.
Lemma hw_is_shown p name h : hw_texts h -> hw_text p name h (dbg_hw p name h).
Proof.
  intros [A B]. exists (decimal (b2n (hw_flags h))), (dbg_vec (hw_handle h)), (dbg_vec (hw_reserved h)),
    (dbg_option (dbg_str p) (hw_pin h)), (dbg_option (dbg_str p) (hw_device_path h)). split; [apply decimal_n|]. shown.
Qed.
Lemma priv_kind_is_shown p k : priv_kind_texts k -> priv_kind_text p k (dbg_priv_kind p k).
Proof.
  destruct k as [r|c key|h|key|h]; cbn [priv_kind_texts priv_kind_text dbg_priv_kind].
  - intros _. exists (dbg_vec (rp_n r)), (dbg_vec (rp_e r)), (dbg_vec (rp_d r)), (dbg_vec (rp_coefficient r)), (dbg_vec (rp_p r)),
      (dbg_vec (rp_q r)), (dbg_option dbg_vec (rp_exp r)), (dbg_option dbg_vec (rp_exq r)). shown.
  - intros A. exists (dbg_curve p c), (dbg_vec key). split; [apply curve_is_shown, A|]. shown.
  - intros A. eexists. split; [apply hw_is_shown, A|layout].
  - intros _. exists (dbg_vec key). shown.
  - intros A. eexists. split; [apply hw_is_shown, A|layout].
Qed.
Lemma priv_is_shown p k : priv_texts k -> priv_text p k (dbg_privkey p k).
Proof.
  intros (A & B & C & D). exists (dbg_key_type p (sk_type k)), (dbg_priv_kind p (sk_kind k)), (dbg_pubkey p (sk_pub k)),
    (decimal (sk_magic k)), (dbg_str p (sk_comment k)).
  split; [apply type_is_shown, A|]. split; [apply priv_kind_is_shown, D|]. split; [apply pub_is_shown, B|]. shown.
Qed.
Lemma fido_is_shown p k : priv_texts (fk_private k) -> fido_text p k (dbg_fido_key p k).
Proof.
  intros A. exists (dbg_privkey p (fk_private k)), (dbg_attestation (fk_attestation k)). split; [apply priv_is_shown, A|].
  split; [|layout]. exists (dbg_vec (at_auth_data (fk_attestation k))), (dbg_vec (at_sig (fk_attestation k))),
    (dbg_vec (at_intermediate (fk_attestation k))), (dbg_vec (at_challenge (fk_attestation k))), (display_z (at_alg (fk_attestation k))).
  shown.
Qed.

(** The rules leave no choice. *)
Definition only {A} (R : A -> bytes -> Prop) : Prop := forall a t u, R a t -> R a u -> t = u.
Lemma hex_value_fun b c v : hex_value b v -> hex_value c v -> b = c.
Proof. unfold hex_value. change Byte.to_N with b2n. intros H K. apply b2n_inj. lia. Qed.
Lemma hex_value_small b v : hex_value b v -> (v < 16)%N.
Proof. unfold hex_value. lia. Qed.
Lemma hex_number_fun n t : hex_number n t -> forall u, hex_number n u -> t = u.
Proof.
  induction 1 as [b v H|n l b v Hl IH Hn H]; intros u U.
  - destruct U as [c w U|m k c w U Hm W]; [f_equal; eapply hex_value_fun; eauto|]. apply hex_value_small in H. lia.
  - remember (16 * n + v)%N as x eqn:Ex. destruct U as [c w U|m k c w U Hm W].
    + apply hex_value_small in U. lia.
    + pose proof (hex_value_small _ _ H). pose proof (hex_value_small _ _ W).
      assert (m = n /\ w = v) as [-> ->] by lia. f_equal; [apply IH, U|]. f_equal. eapply hex_value_fun; eauto.
Qed.
Lemma char_shown_fun p c bs t u : char_shown p c bs t -> char_shown p c bs u -> t = u.
Proof.
  assert (Nn : forall e, In (c, e) [(0%N, x30); (9%N, x74); (10%N, x6e); (13%N, x72); (34%N, x22); (92%N, x5c)] -> named c).
  { intros e H. unfold named. cbn [In] in *. intuition congruence. }
  intros H K. destruct H as [e He|Hn Hr|h Hn Hr Hh]; destruct K as [f Hf|Kn Kr|k Kn Kr Kh]; try reflexivity;
    try (exfalso; eauto; fail).
  - repeat f_equal. cbn [In] in He, Hf.
    destruct He as [E|[E|[E|[E|[E|[E|[]]]]]]]; injection E as <- <-; intuition congruence.
  - exfalso. destruct Hr as [R|[R P]], Kr as [Q|[Q|[Q S]]]; try lia. congruence.
  - exfalso. destruct Kr as [R|[R P]], Hr as [Q|[Q|[Q S]]]; try lia. congruence.
  - rewrite (hex_number_fun _ _ Hh _ Kh). reflexivity.
Qed.
Lemma chars_shown_fun p s t : chars_shown p s t -> forall u, chars_shown p s u -> t = u.
Proof.
  induction 1 as [|c bs l e t Hc He Hl IH]; intros u U.
  - inversion U as [|d ds m f v Hd Hf Hm E]; [reflexivity|]. subst. destruct Hd; discriminate E.
  - remember (bs ++ l) as x eqn:Ex. destruct U as [|d ds m f v Hd Hf Hm]; [destruct Hc; discriminate Ex|].
    destruct (utf8_char_beginning _ _ Hc _ _ _ _ Hd Ex) as [-> <-]. apply app_inv_head in Ex. subst m.
    f_equal; [eapply char_shown_fun; eauto|auto].
Qed.
Lemma only_quoted p : only (quoted p).
Proof. intros s t u (a & A & ->) (b & B & ->). rewrite (chars_shown_fun _ _ _ A _ B). reflexivity. Qed.
Lemma only_maybe R : only R -> only (maybe R).
Proof.
  intros H [s|] t u; cbn [maybe]; [|congruence]. intros (a & A & ->) (b & B & ->). rewrite (H _ _ _ A B). reflexivity.
Qed.
Lemma listed_tail_fun l t : listed_tail l t -> forall u, listed_tail l u -> t = u.
Proof.
  induction 1 as [|b l d t D T IH]; intros u U; [inversion U; reflexivity|].
  inversion U as [|b' l' d' t' D' T']; subst. rewrite (decimal_fun _ _ _ D D'), (IH _ T'). reflexivity.
Qed.
Lemma only_listed : only listed.
Proof.
  intros [|b l] t u; cbn [listed]; [congruence|]. intros (d & v & D & V & ->) (e & w & E & W & ->).
  rewrite (decimal_fun _ _ _ D E), (listed_tail_fun _ _ V _ W). reflexivity.
Qed.
Lemma only_truth : only truth. Proof. intros [|] t u; cbn [truth]; congruence. Qed.
Lemma only_type_kind : only type_kind_text. Proof. intros [| | | | |] t u; cbn [type_kind_text]; congruence. Qed.
Lemma only_curve_kind : only curve_kind_text. Proof. intros [| |] t u; cbn [curve_kind_text]; congruence. Qed.
(** Two lists of parts, each part determined. *)
Ltac parts := repeat match goal with
  | H : exists _, _ |- _ => destruct H
  | H : _ /\ _ |- _ => destruct H
  end; subst.
Ltac same H := repeat match goal with
  | A : ?R ?a ?x, B : ?R ?a ?y |- _ =>
      lazymatch x with y => fail | _ => idtac end; let E := fresh in assert (E : x = y) by (exact (H a x y A B)); clear A; subst
  end.
Lemma only_decimal : only decimal_text. Proof. intros a t u. apply decimal_fun. Qed.
Ltac same_parts p := intros; parts; same (only_quoted p); same only_listed; same only_truth; same only_type_kind; same only_curve_kind;
  same (only_maybe _ (only_quoted p)); same (only_maybe _ only_listed); same only_decimal; try reflexivity.
Lemma only_type p : only (type_text p).
Proof. intros a t u. unfold type_text. same_parts p. Qed.
Lemma only_curve p : only (curve_text p).
Proof. intros a t u. unfold curve_text. same_parts p. Qed.
Lemma only_pub_kind p : only (pub_kind_text p).
Proof. intros [e n|c key app|key app] t u; cbn [pub_kind_text]; same_parts p. same (only_curve p). reflexivity. Qed.
Lemma only_pub p : only (pub_text p).
Proof. intros a t u. unfold pub_text. same_parts p. same (only_type p). same (only_pub_kind p). reflexivity. Qed.
Lemma only_hw p name : only (hw_text p name).
Proof. intros a t u. unfold hw_text. same_parts p. Qed.
Lemma only_priv_kind p : only (priv_kind_text p).
Proof.
  intros [r|c key|h|key|h] t u; cbn [priv_kind_text]; same_parts p.
  - same (only_curve p). reflexivity.
  - same (only_hw p (s2b "EcdsaSkPrivateKey")). reflexivity.
  - same (only_hw p (s2b "Ed25519SkPrivateKey")). reflexivity.
Qed.
Lemma only_priv p : only (priv_text p).
Proof.
  intros a t u. unfold priv_text. same_parts p. same (only_type p). same (only_pub p). same (only_priv_kind p). reflexivity.
Qed.
Lemma only_fido p : only (fido_text p).
Proof.
  intros a t u. unfold fido_text. same_parts p. same (only_priv p).
  unfold attestation_text in *. same_parts p.
Qed.

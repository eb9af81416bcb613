(** Lemmas about [Temps.v]. *)
From Coq Require Import Lia Permutation.
From Verif Require Import Base BaseFacts Str Base64 Reader ReaderFacts LocalFacts KeyType KeyTypeFacts PubKeyType Writer WireFacts Crypto PubKey PubKeyFacts
  Signature Utils PrivKey PrivKeyFacts Memory SpecMemory MemoryFacts Temps SpecPrivKey.

(** ** Changes of memory *)
Definition nonzero (l : list bytes) : list bytes := filter (fun b => negb (zeros b)) l.
(** [change h new l h']: what was there stays, the buffers [new] came into use, [l] was left. *)
Definition change (h : heap) (new : list nat) (l : list bytes) (h' : heap) : Prop :=
  (forall own, owns own h -> owns (new ++ own) h') /\ Permutation (leftovers h') (nonzero l ++ leftovers h)
  /\ (forall a, a < length h -> nth_error h' a = nth_error h a) /\ Forall (le (length h)) new.
Lemma change_refl h : change h [] [] h.
Proof. split; [auto|]. split; [reflexivity|]. split; [reflexivity|constructor]. Qed.
Lemma change_len h new l h' : change h new l h' -> length h <= length h'.
Proof.
  intros (_ & _ & H & _). destruct (length h) as [|n] eqn:E; [lia|]. specialize (H n ltac:(lia)).
  assert (L : n < length h) by lia. apply nth_error_Some in L. rewrite <- H in L. apply nth_error_Some in L. lia.
Qed.
Lemma change_trans h1 h2 h3 n l n' l' : change h1 n l h2 -> change h2 n' l' h3 -> change h1 (n' ++ n) (l' ++ l) h3.
Proof.
  intros C1 C2. pose proof (change_len _ _ _ _ C1) as L. destruct C1 as (O1 & P1 & K1 & F1), C2 as (O2 & P2 & K2 & F2).
  split; [|split; [|split]].
  - intros own O. rewrite <- app_assoc. apply O2, O1, O.
  - rewrite P2, P1. unfold nonzero. rewrite filter_app, <- app_assoc. reflexivity.
  - intros a Ha. rewrite K2, K1 by lia. reflexivity.
  - apply Forall_app. split; [|exact F1]. eapply Forall_impl; [|exact F2]. cbn. lia.
Qed.
(** A buffer that is used for a while. *)
Lemma change_temp c h new l h2 :
  change (h ++ [mkBlock true c]) new l h2 -> change h new (c :: l) (update (length h) free_block h2).
Proof.
  intros (O & P & K & Fr).
  assert (E : nth_error h2 (length h) = Some (mkBlock true c)).
  { rewrite K by (rewrite app_length; cbn; lia). rewrite nth_error_app2, Nat.sub_diag by lia. reflexivity. }
  rewrite app_length in *. cbn [length] in *.
  split; [|split; [|split]].
  - intros own Ow. apply owns_free. eapply owns_perm; [|apply O, owns_alloc, Ow].
    symmetry. apply Permutation_middle.
  - rewrite (leftovers_free _ _ _ E), P, leftovers_app, leftovers_live, app_nil_r. unfold nonzero. rewrite app_assoc, <- filter_app. reflexivity.
  - intros a Ha. rewrite nth_update. destruct (Nat.eqb_spec (length h) a) as [<-|_]; [lia|]. rewrite K by lia.
    apply nth_error_app1. exact Ha.
  - eapply Forall_impl; [|exact Fr]. cbn. lia.
Qed.
Lemma fresh_kept (h : heap) new h2 f : Forall (le (S (length h))) new ->
  forall a, In a new -> nth_error (update (length h) f h2) a = nth_error h2 a.
Proof.
  intros Fr a I. rewrite nth_update. destruct (Nat.eqb_spec (length h) a) as [<-|_]; [|reflexivity].
  rewrite Forall_forall in Fr. specialize (Fr _ I). cbn in Fr. lia.
Qed.

(** ** Reading: what is got and what is left *)
Definition got (h : heap) (x : res mem_key) (y : res privkey) (l : list bytes) (h' : heap) : Prop :=
  match y, x with
  | Ok k, Ok m => change h (buffers (mk_kind m)) l h' /\ load h' m = k
  | Err e, Err e' => e = e' /\ change h [] l h'
  | Panic, Panic => change h [] l h'
  | _, _ => False
  end.
Lemma got_temp c h x y l h2 : got (h ++ [mkBlock true c]) x y l h2 -> got h x y (c :: l) (update (length h) free_block h2).
Proof.
  unfold got. destruct y as [k|e|], x as [m|e'|]; try contradiction.
  - intros [C <-]. split; [apply change_temp, C|]. destruct C as (_ & _ & _ & Fr). rewrite app_length, Nat.add_comm in Fr.
    apply load_ext. apply fresh_kept, Fr.
  - intros [E C]. split; [exact E|apply change_temp, C].
  - apply change_temp.
Qed.

(** Reading a key in memory follows reading it as a value. *)
Lemma place_change k h : change h (buffers (mk_kind (fst (place k h)))) [] (snd (place k h)) /\ load (snd (place k h)) (fst (place k h)) = k.
Proof.
  destruct (place k h) as [m h'] eqn:E. destruct (place_ok _ _ _ _ E) as ((G1 & G2 & G3) & L). cbn [fst snd].
  split; [|exact L]. split; [exact G1|]. split; [rewrite G2; reflexivity|]. split; [exact G3|].
  clear L G1 G2 G3. revert E. destruct k as [t [r|c b|w|b|w] pub mg cm]; unfold place, place_kind, place_hw, alloc; cbn [sk_kind sk_type sk_pub sk_magic sk_comment];
    [destruct r as [n e d co p q [x|] [y|]]|..]; try (destruct w as [fl hd rs [pn|] [pt|]]); cbn [alloc_opt alloc hw_pin hw_device_path rp_exp rp_exq];
    unfold alloc; intros E; injection E as <- <-; cbn [mk_kind buffers opt_list List.app]; repeat constructor;
    rewrite ?app_length; cbn [length]; lia.
Qed.
(** What a failing read leaves, collected by a reader without memory. *)
Definition try {A} (m : M A) (f : A -> M (list bytes)) : M (list bytes) := fun r =>
  match m r with (Ok x, s) => f x s | (_, s) => (Ok [], s) end.
Definition keep (m : M bytes) (f : bytes -> M (list bytes)) : M (list bytes) :=
  try m (fun c => mbind (f c) (fun l => ret (c :: l))).
Definition keep_opt (m : M (option bytes)) (f : M (list bytes)) : M (list bytes) :=
  try m (fun o => mbind f (fun l => ret (opt_list o ++ l))).
Definition collect_end : M (list bytes) := try read_string (fun _ => ret []).
Definition collect_hw : M (list bytes) :=
  try read_string (fun _ => try (read_raw_bytes 1) (fun fl => try (lift (index fl 0)) (fun _ =>
  keep read_bytes (fun _ => keep read_bytes (fun _ => collect_end))))).
Definition collect_body (F : features) (kt : key_type) : M (list bytes) :=
  match kt_k kt with
  | KRsa =>
      keep read_positive_mpint (fun n => keep read_positive_mpint (fun e => keep read_positive_mpint (fun d =>
      keep read_positive_mpint (fun i => keep read_positive_mpint (fun p => keep read_positive_mpint (fun q =>
      keep_opt (lift (exponent F d p)) (keep_opt (lift (exponent F d q)) collect_end)))))))
  | KEcdsa =>
      try read_string (fun id => try (lift (curve_from_identifier id)) (fun _ => try read_bytes (fun _ =>
      if kt_is_sk kt then collect_hw else keep read_bytes (fun _ => collect_end))))
  | KEd25519 =>
      try read_bytes (fun _ => if kt_is_sk kt then collect_hw else keep read_bytes (fun _ => collect_end))
  | _ => ret []
  end.
Definition collect (F : features) : M (list bytes) :=
  try read_string (fun name => try (lift (kt_from_name name)) (collect_body F)).
Definition tracks {A} (m : HM A) (c : M (list bytes)) : Prop := forall r h, exists l, fst (c r) = Ok l
  /\ match m r h with ((Ok _, _), _) => True | (_, h') => change h [] l h' end.
Lemma tracks_plainly {A} (m : M A) : tracks (plainly m) (ret []).
Proof. intros r h. exists []. split; [reflexivity|]. unfold plainly. destruct (m r) as [[x|e|] s]; [exact I|apply change_refl..]. Qed.
Lemma tracks_bind {A B} (m : M A) (f : A -> HM B) c : (forall x, tracks (f x) (c x)) -> tracks (hbind (plainly m) f) (try m c).
Proof.
  intros H r h. unfold hbind, plainly, try. destruct (m r) as [[x|e|] s]; [apply H|..];
    exists []; (split; [reflexivity|apply change_refl]).
Qed.
Lemma tracks_hold {C} m (f : bytes -> nat -> HM C) g : (forall c a, tracks (f c a) (g c)) -> tracks (hold m f) (keep m g).
Proof.
  intros H. apply tracks_bind. intros c r h. unfold held, alloc. destruct (H c (length h) r (h ++ [mkBlock true c])) as (l & E & Q).
  exists (c :: l). unfold mbind, ret. destruct (g c r) as [x s]. cbn [fst] in E. subst x. split; [reflexivity|].
  destruct (f c (length h) r (h ++ [mkBlock true c])) as [[[x|e|] s'] h']; [exact I|apply change_temp, Q..].
Qed.
Lemma tracks_hold_opt {C} m (f : option nat -> HM C) g : (forall a, tracks (f a) g) -> tracks (hold_opt m f) (keep_opt m g).
Proof.
  intros H. apply tracks_bind. intros [c|] r h; unfold held, alloc_opt, alloc, mbind, ret.
  - destruct (H (Some (length h)) r (h ++ [mkBlock true c])) as (l & E & Q). exists (c :: l).
    destruct (g r) as [x s]. cbn [fst] in E. subst x. split; [reflexivity|].
    destruct (f (Some (length h)) r (h ++ [mkBlock true c])) as [[[x|e|] s'] h']; [exact I|apply change_temp, Q..].
  - destruct (H None r h) as (l & E & Q). exists l. destruct (g r) as [x s]. cbn [fst] in E. subst x. split; [reflexivity|].
    destruct (f None r h) as [[[x|e|] s'] h']; [exact I|exact Q..].
Qed.
Lemma tracks_finish kt kind pub : tracks (mem_finish kt kind pub) collect_end.
Proof. apply tracks_bind. intros c r h. exists []. split; [reflexivity|exact I]. Qed.
Lemma key_tracks F : tracks (mem_read_private_key F) (collect F).
Proof.
  unfold mem_read_private_key, collect. apply tracks_bind. intros name. apply tracks_bind. intros kt. unfold collect_body.
  assert (H : forall (f : bytes -> byte -> nat -> nat -> HM mem_key), (forall a b c d, tracks (f a b c d) collect_end) -> tracks (mem_read_hw f) collect_hw).
  { intros f H. unfold mem_read_hw. do 3 (apply tracks_bind; intros ?). do 2 (apply tracks_hold; intros ? ?). apply H. }
  destruct (kt_k kt); try apply tracks_plainly.
  - do 6 (apply tracks_hold; intros ? ?). do 2 (apply tracks_hold_opt; intros ?). apply tracks_finish.
  - apply tracks_bind. intros ?. destruct (kt_is_sk kt).
    + apply H. intros. apply tracks_finish.
    + apply tracks_hold. intros. apply tracks_finish.
  - do 3 (apply tracks_bind; intros ?). destruct (kt_is_sk kt).
    + apply H. intros. apply tracks_finish.
    + apply tracks_hold. intros. apply tracks_finish.
Qed.
Definition all_of (x : res (list bytes)) : list bytes := match x with Ok l => l | _ => [] end.
Definition key_left (F : features) (r : reader) : list bytes :=
  match fst (read_private_key F r) with Ok _ => [] | _ => all_of (fst (collect F r)) end.
Definition sec_left (F : features) (r : reader) : list bytes :=
  match read_u32 r with
  | (Ok m1, r1) => match read_u32 r1 with
                   | (Ok m2, r2) => if (m1 =? m2)%N then key_left F r2 else []
                   | _ => []
                   end
  | _ => []
  end.

(** The two readers go the same way. *)
Lemma key_values F r h :
  match read_private_key F r with
  | (Ok k, s) => mem_read_private_key F r h = ((Ok (fst (place k h)), s), snd (place k h))
  | (Err e, s) => fst (mem_read_private_key F r h) = (Err e, s)
  | (Panic, s) => fst (mem_read_private_key F r h) = (Panic, s)
  end.
Proof.
  unfold mem_read_private_key, read_private_key, mem_read_hw, read_hw, mem_finish, hold, hold_opt, held, hbind, plainly, mbind, hret, ret, alloc_opt, alloc, lift.
  destruct (read_string r) as [[name|e|] r0]; [|reflexivity..].
  destruct (kt_from_name name) as [kt|e|]; [|reflexivity..].
  destruct (kt_k kt); try reflexivity.
  - do 6 (match goal with |- context [read_positive_mpint ?r] => destruct (read_positive_mpint r) as [[?|?|] ?]; [|reflexivity..] end).
    unfold exponent, crt_exponents. destruct (f_rsa F); cbn [bind].
    + do 2 (match goal with |- context [crt_exponent ?d ?p] => destruct (crt_exponent d p) as [?|?|]; cbn [bind]; [|reflexivity..] end).
      cbn [fst snd]. destruct (read_string _) as [[?|?|] ?]; reflexivity.
    + cbn [fst snd]. destruct (read_string _) as [[?|?|] ?]; reflexivity.
  - destruct (read_bytes r0) as [[pk|e|] r2]; [|reflexivity..]. destruct (kt_is_sk kt).
    + destruct (read_string r2) as [[app|e|] r3]; [|reflexivity..]. destruct (read_raw_bytes 1 r3) as [[fl|e|] r4]; [|reflexivity..].
      destruct (index fl 0) as [b|e|]; [|reflexivity..]. destruct (read_bytes r4) as [[hd|e|] r5]; [|reflexivity..].
      destruct (read_bytes r5) as [[rs|e|] r6]; [|reflexivity..]. cbn [fst snd]. destruct (read_string r6) as [[?|?|] ?]; reflexivity.
    + destruct (read_bytes r2) as [[key|e|] r3]; [|reflexivity..]. cbn [fst snd]. destruct (read_string r3) as [[?|?|] ?]; reflexivity.
  - destruct (read_string r0) as [[id|e|] r1]; [|reflexivity..]. destruct (curve_from_identifier id) as [c|e|]; [|reflexivity..].
    destruct (read_bytes r1) as [[pk|e|] r2]; [|reflexivity..]. destruct (kt_is_sk kt).
    + destruct (read_string r2) as [[app|e|] r3]; [|reflexivity..]. destruct (read_raw_bytes 1 r3) as [[fl|e|] r4]; [|reflexivity..].
      destruct (index fl 0) as [b|e|]; [|reflexivity..]. destruct (read_bytes r4) as [[hd|e|] r5]; [|reflexivity..].
      destruct (read_bytes r5) as [[rs|e|] r6]; [|reflexivity..]. cbn [fst snd]. destruct (read_string r6) as [[?|?|] ?]; reflexivity.
    + destruct (read_bytes r2) as [[key|e|] r3]; [|reflexivity..]. cbn [fst snd]. destruct (read_string r3) as [[?|?|] ?]; reflexivity.
Qed.

(** A key whose comment cannot be read: its parts are left. *)
Definition parts (s : priv_kind) : list bytes :=
  match s with
  | SkRsa r => [rp_n r; rp_e r; rp_d r; rp_coefficient r; rp_p r; rp_q r] ++ opt_list (rp_exp r) ++ opt_list (rp_exq r)
  | SkEcdsa _ key | SkEd25519 key => [key]
  | SkEcdsaSk w | SkEd25519Sk w => [hw_handle w; hw_reserved w]
  end.
Lemma cut_collect F r name r0 kt sec pub s e s' : read_string r = (Ok name, r0) -> kt_from_name name = Ok kt ->
  read_body F kt r0 = (Ok (sec, pub), s) -> read_string s = (Err e, s') -> key_left F r = parts sec.
Proof.
  intros H1 H2 H3 H4. revert H3.
  unfold key_left, read_private_key, read_body, collect, collect_body, collect_hw, collect_end, read_hw, keep, keep_opt, try, mbind, ret, lift.
  rewrite H1, H2. destruct (kt_k kt); try discriminate.
  - do 6 (match goal with |- context [read_positive_mpint ?r] => destruct (read_positive_mpint r) as [[?|?|] ?]; [|discriminate..] end).
    unfold exponent, crt_exponents. destruct (f_rsa F); cbn [bind].
    + do 2 (match goal with |- context [crt_exponent ?d ?p] => destruct (crt_exponent d p) as [?|?|]; cbn [bind]; [|discriminate..] end).
      cbn [fst snd]. intros H. injection H as <- _ ->. rewrite H4. reflexivity.
    + cbn [fst snd]. intros H. injection H as <- _ ->. rewrite H4. reflexivity.
  - destruct (read_bytes r0) as [[pk|?|] r2]; [|discriminate..]. destruct (kt_is_sk kt).
    + destruct (read_string r2) as [[app|?|] r3]; [|discriminate..]. destruct (read_raw_bytes 1 r3) as [[fl|?|] r4]; [|discriminate..].
      destruct (index fl 0) as [b|?|]; [|discriminate..]. destruct (read_bytes r4) as [[hd|?|] r5]; [|discriminate..].
      destruct (read_bytes r5) as [[rs|?|] r6]; [|discriminate..]. cbn [fst snd]. intros H. injection H as <- _ ->. rewrite H4. reflexivity.
    + destruct (read_bytes r2) as [[key|?|] r3]; [|discriminate..]. intros H. injection H as <- _ ->. cbn [fst snd]. rewrite H4. reflexivity.
  - destruct (read_string r0) as [[id|?|] r1]; [|discriminate..]. destruct (curve_from_identifier id) as [c|?|]; [|discriminate..].
    destruct (read_bytes r1) as [[pk|?|] r2]; [|discriminate..]. destruct (kt_is_sk kt).
    + destruct (read_string r2) as [[app|?|] r3]; [|discriminate..]. destruct (read_raw_bytes 1 r3) as [[fl|?|] r4]; [|discriminate..].
      destruct (index fl 0) as [b|?|]; [|discriminate..]. destruct (read_bytes r4) as [[hd|?|] r5]; [|discriminate..].
      destruct (read_bytes r5) as [[rs|?|] r6]; [|discriminate..]. cbn [fst snd]. intros H. injection H as <- _ ->. rewrite H4. reflexivity.
    + destruct (read_bytes r2) as [[key|?|] r3]; [|discriminate..]. intros H. injection H as <- _ ->. cbn [fst snd]. rewrite H4. reflexivity.
Qed.
Lemma cut_reads F kt sec pub rest : known kt -> key_kind kt -> sec_ok F kt pub sec -> (forall c, run read_string rest <> Ok c) ->
  exists r0 s e s', read_string (reader_new (enc_bytes (kt_name kt) ++ enc_sec pub sec ++ rest)) = (Ok (kt_name kt), r0)
    /\ read_body F kt r0 = (Ok (sec, pub), s) /\ read_string s = (Err e, s').
Proof.
  intros H1 H2 H3 H4. set (d := enc_bytes (kt_name kt) ++ enc_sec pub sec ++ rest).
  assert (E0 : run (mbind read_string (fun n => mbind (read_body F kt) (fun x => ret (n, x)))) d = Ok (kt_name kt, (sec, pub))).
  { subst d. rewrite str_step by (try apply known_str, H1; hw_local; apply local_read_body). rewrite body_step by (try assumption; hw_local). reflexivity. }
  assert (E1 : run (mbind read_string (fun _ => mbind (read_body F kt) (fun _ => read_string))) d = run read_string rest).
  { subst d. rewrite str_step by (try apply known_str, H1; hw_local; apply local_read_body). rewrite body_step by (try assumption; hw_local). reflexivity. }
  unfold run at 1 in E0. unfold run at 1 in E1. unfold mbind, ret in E0, E1. destruct (read_string (reader_new d)) as [[n|?|] r0]; [|discriminate..].
  destruct (read_body F kt r0) as [[x|?|] s] eqn:Eb; [|discriminate..]. injection E0 as -> ->.
  pose proof (nopanic_read_string s) as Np. destruct (read_string s) as [[c|e|] s'] eqn:Es; cbn [fst] in E1.
  - destruct (H4 c). symmetry. exact E1.
  - exists r0, s, e, s'. split; [reflexivity|]. split; [exact Eb|exact Es].
  - destruct (Np eq_refl).
Qed.
Lemma key_got F r h :
  got h (fst (fst (mem_read_private_key F r h))) (fst (read_private_key F r)) (key_left F r) (snd (mem_read_private_key F r h))
  /\ snd (fst (mem_read_private_key F r h)) = snd (read_private_key F r).
Proof.
  pose proof (key_values F r h) as V. destruct (key_tracks F r h) as (l & L & W). unfold key_left. rewrite L. cbn [all_of].
  destruct (read_private_key F r) as [[k|e|] s]; cbn [fst snd].
  - rewrite V. split; [apply place_change|]. reflexivity.
  - destruct (mem_read_private_key F r h) as [x h']. cbn [fst] in V. subst x. split; [split; [reflexivity|exact W]|reflexivity].
  - destruct (mem_read_private_key F r h) as [x h']. cbn [fst] in V. subst x. split; [exact W|reflexivity].
Qed.
Lemma drop_change k h l h' : (exists own, owns own h) -> change h (buffers (mk_kind k)) l h' -> change h [] l (mem_drop k h').
Proof.
  intros [own0 O0] (O & P & K & Fr). split; [|split; [|split; [|constructor]]].
  - intros own Ow. apply (drop_ok k h' own), O, Ow.
  - destruct (drop_ok k h' own0 (O own0 O0)) as (_ & -> & _). exact P.
  - intros a Ha. destruct (drop_ok k h' own0 (O own0 O0)) as (_ & _ & D). rewrite D; [apply K, Ha|].
    intros I. rewrite Forall_forall in Fr. specialize (Fr _ I). cbn in Fr. lia.
Qed.
Definition owned_heap (h : heap) : Prop := exists own, owns own h.
Lemma section_got F pub r h : owned_heap h ->
  got h (fst (fst (mem_section F pub r h))) (fst (read_section F pub r)) (sec_left F r) (snd (mem_section F pub r h)).
Proof.
  intros Ow. unfold mem_section, read_section, sec_left, hbind, plainly, mbind, throw.
  destruct (read_u32 r) as [[m1|e|] r1]; cbn [fst snd]; [|split; [reflexivity|]; apply change_refl|apply change_refl].
  destruct (read_u32 r1) as [[m2|e|] r2]; cbn [fst snd]; [|split; [reflexivity|]; apply change_refl|apply change_refl].
  destruct (m1 =? m2)%N; cbn [negb fst snd]; [|split; [reflexivity|]; apply change_refl].
  destruct (key_got F r2 h) as (G & S). unfold key_left in *.
  destruct (mem_read_private_key F r2 h) as [[[k|e|] s] h'], (read_private_key F r2) as [[k'|e'|] s']; cbn [got fst snd] in *; try contradiction.
  - destruct G as [C L]. cbn [mk_pub sk_pub].
    assert (Ep : mk_pub k = sk_pub k') by (rewrite <- L; reflexivity). rewrite Ep.
    destruct (negb (pubkey_eqb (sk_pub k') pub)); unfold hret, ret; cbn [fst snd got mk_kind].
    + split; [reflexivity|].
      apply (drop_change (mkMemKey (mk_type k) (mk_kind k) (sk_pub k') m1 (mk_comment k)) h [] h' Ow C).
    + split; [exact C|]. rewrite <- L. reflexivity.
  - exact G.
  - exact G.
Qed.
Lemma section_ok_left F pub r k : fst (read_section F pub r) = Ok k -> sec_left F r = [].
Proof.
  unfold read_section, sec_left, mbind, throw, key_left. destruct (read_u32 r) as [[m1|e|] r1]; [|discriminate..].
  destruct (read_u32 r1) as [[m2|e|] r2]; [|discriminate..]. destruct (m1 =? m2)%N; [|discriminate]. cbn [negb].
  destruct (read_private_key F r2) as [[k'|e'|] s']; [reflexivity|discriminate..].
Qed.
Lemma owned_alloc c h : owned_heap h -> owned_heap (h ++ [mkBlock true c]).
Proof. intros [own O]. exists (length h :: own). apply owns_alloc, O. Qed.
Definition unlock_left (F : features) (K : keyops) (ci kd op : bytes) (pass : option bytes) (se : bytes) : list bytes :=
  match decrypt F K ci kd op pass se with Ok plain => plain :: sec_left F (reader_new plain) | _ => [se] end.
Lemma unlock_got F K ci kd op pass pub se h : owned_heap h ->
  got h (fst (mem_unlock F K ci kd op pass pub se h))
    (do? plain <- decrypt F K ci kd op pass se; run (read_section F pub) plain) (unlock_left F K ci kd op pass se)
    (snd (mem_unlock F K ci kd op pass pub se h)).
Proof.
  intros Ow. unfold mem_unlock, unlock_left, alloc. destruct (decrypt F K ci kd op pass se) as [plain|e|]; cbn [bind].
  - rewrite update_split. unfold overwrite. cbn [bl_live].
    pose proof (section_got F pub (reader_new plain) (h ++ [mkBlock true plain]) (owned_alloc plain h Ow)) as G.
    unfold run. destruct (mem_section F pub (reader_new plain) (h ++ [mkBlock true plain])) as [[k s] h']. cbn [fst snd] in *.
    apply got_temp, G.
  - cbn [fst snd]. split; [reflexivity|]. apply change_temp, change_refl.
  - cbn [fst snd]. apply change_temp, change_refl.
Qed.

(** ** The header *)
Definition head : M (bytes * bytes * bytes * pubkey * bytes) :=
  do! preamble <- read_cstring;
  if negb (bytes_eqb preamble (s2b "openssh-key-v1")) then throw EInvalidFormat else
  do! cipher <- read_string;
  do! kdf <- read_string;
  do! options <- read_bytes;
  do! count <- read_u32;
  if negb (count =? 1)%N then throw EInvalidFormat else
  do! pkb <- read_bytes;
  do! pub <- lift (pk_from_bytes pkb);
  do! remaining <- read_u32;
  do! section <- read_raw_bytes (N.to_nat remaining);
  ret (cipher, kdf, options, pub, section).
Lemma reader_head F K pass r : fst (sk_from_reader F K pass r) =
  do? x <- fst (head r); let '(ci, kd, op, pub, se) := x in
  do? plain <- decrypt F K ci kd op pass se; run (read_section F pub) plain.
Proof.
  unfold sk_from_reader, head, mbind, lift, ret, throw.
  destruct (read_cstring r) as [[pre|e|] r0]; [|reflexivity..]. destruct (negb (bytes_eqb pre _)); [reflexivity|].
  destruct (read_string r0) as [[ci|e|] r1]; [|reflexivity..]. destruct (read_string r1) as [[kd|e|] r2]; [|reflexivity..].
  destruct (read_bytes r2) as [[op|e|] r3]; [|reflexivity..]. destruct (read_u32 r3) as [[n|e|] r4]; [|reflexivity..].
  destruct (negb (n =? 1)%N); [reflexivity|].
  destruct (read_bytes r4) as [[pkb|e|] r5]; [|reflexivity..]. destruct (pk_from_bytes pkb) as [pub|e|]; [|reflexivity..].
  destruct (read_u32 r5) as [[m|e|] r6]; [|reflexivity..]. destruct (read_raw_bytes (N.to_nat m) r6) as [[se|e|] r7]; [|reflexivity..].
  cbn [fst bind]. destruct (decrypt F K ci kd op pass se) as [pl|e|]; reflexivity.
Qed.
Lemma mem_head F K pass r h :
  (fst (fst (mem_from_reader F K pass r h)), snd (mem_from_reader F K pass r h)) =
  match fst (head r) with
  | Ok (ci, kd, op, pub, se) => mem_unlock F K ci kd op pass pub se h
  | Err e => (Err e, h)
  | Panic => (Panic, h)
  end.
Proof.
  unfold mem_from_reader, head, hbind, plainly, mbind, lift, ret, throw.
  destruct (read_cstring r) as [[pre|e|] r0]; [|reflexivity..]. destruct (negb (bytes_eqb pre _)); [reflexivity|].
  destruct (read_string r0) as [[ci|e|] r1]; [|reflexivity..]. destruct (read_string r1) as [[kd|e|] r2]; [|reflexivity..].
  destruct (read_bytes r2) as [[op|e|] r3]; [|reflexivity..]. destruct (read_u32 r3) as [[n|e|] r4]; [|reflexivity..].
  destruct (negb (n =? 1)%N); [reflexivity|].
  destruct (read_bytes r4) as [[pkb|e|] r5]; [|reflexivity..]. destruct (pk_from_bytes pkb) as [pub|e|]; [|reflexivity..].
  destruct (read_u32 r5) as [[m|e|] r6]; [|reflexivity..]. destruct (read_raw_bytes (N.to_nat m) r6) as [[se|e|] r7]; [|reflexivity..].
  cbn [fst]. destruct (mem_unlock F K ci kd op pass pub se h) as [k h']. reflexivity.
Qed.
Lemma head_run cipher kdf options pkb pub section tl :
  str_ok cipher -> str_ok kdf -> fits options -> fits pkb -> fits section -> section ++ tl <> [] ->
  pk_from_bytes pkb = Ok pub ->
  run head (enc_file cipher kdf options pkb section ++ tl) = Ok (cipher, kdf, options, pub, section).
Proof.
  intros H1 H2 H3 H4 H5 H6 H7. unfold head, enc_file. rewrite <- !app_assoc.
  rewrite magic_step by local_tac. unfold key_magic. rewrite bytes_eqb_refl. cbn [negb].
  rewrite str_step by (try assumption; local_tac). rewrite str_step by (try assumption; local_tac).
  rewrite step_bytes by (try assumption; local_tac). rewrite step_u32 by (try lia; local_tac).
  cbn [N.eqb Pos.eqb negb]. rewrite step_bytes by (try assumption; local_tac).
  rewrite (run_lift _ _ _ _ H7). unfold enc_bytes at 1. rewrite <- !app_assoc.
  rewrite step_u32 by (try assumption; local_tac). rewrite Nat2N.id.
  rewrite raw_step by (try assumption; local_tac). reflexivity.
Qed.

(** ** The text *)
Lemma got_trans h h1 x y l l' h2 : change h [] l h1 -> got h1 x y l' h2 -> got h x y (l' ++ l) h2.
Proof.
  intros C. unfold got. destruct y as [k|e|], x as [m|e'|]; try contradiction.
  - intros [C' L]. split; [|exact L]. rewrite <- (app_nil_r (buffers _)). eapply change_trans; eassumption.
  - intros [E C']. split; [exact E|]. apply (change_trans _ _ _ _ _ _ _ C C').
  - intros C'. apply (change_trans _ _ _ _ _ _ _ C C').
Qed.
Lemma owned_change h l h' : change h [] l h' -> owned_heap h -> owned_heap h'.
Proof. intros (O & _) [own Ow]. exists own. apply (O own Ow). Qed.
Definition reader_left (F : features) (K : keyops) (pass : option bytes) (data : bytes) : list bytes :=
  match run head data with Ok (ci, kd, op, _, se) => unlock_left F K ci kd op pass se | _ => [] end.
Lemma reader_got F K pass data h : owned_heap h ->
  got h (fst (fst (mem_from_reader F K pass (reader_new data) h))) (run (sk_from_reader F K pass) data) (reader_left F K pass data)
    (snd (mem_from_reader F K pass (reader_new data) h)).
Proof.
  intros Ow. unfold reader_left, run. rewrite reader_head. pose proof (mem_head F K pass (reader_new data) h) as E.
  destruct (mem_from_reader F K pass (reader_new data) h) as [[k s] h']. cbn [fst snd] in *.
  destruct (fst (head (reader_new data))) as [((((ci & kd) & op) & pub) & se)|e|]; cbn [bind].
  - pose proof (unlock_got F K ci kd op pass pub se h Ow) as G. rewrite <- E in G. exact G.
  - injection E as -> ->. split; [reflexivity|apply change_refl].
  - injection E as -> ->. apply change_refl.
Qed.
Lemma reader_stage F K pass data ci kd op pub se plain : run head data = Ok (ci, kd, op, pub, se) -> decrypt F K ci kd op pass se = Ok plain ->
  exists l', reader_left F K pass data = plain :: l' /\ (forall k, run (sk_from_reader F K pass) data = Ok k -> l' = []).
Proof.
  intros X D. unfold reader_left, unlock_left. rewrite X, D. exists (sec_left F (reader_new plain)). split; [reflexivity|].
  intros k. unfold run. rewrite reader_head. unfold run in X. rewrite X. cbn [bind]. rewrite D. apply section_ok_left.
Qed.
Lemma collected_ok e : forall ls acc b, armor_body e ls acc = Ok b -> collected e ls acc = b.
Proof.
  induction ls as [|p ls IH]; intros acc b; cbn; [discriminate|]. destruct (bytes_eqb p e); [congruence|apply IH].
Qed.
(** The stages of reading a text. *)
Definition stages (F : features) (K : keyops) (text : bytes) (pass : option bytes) (body data plain : bytes) : Prop :=
  (first_line (lines text)) = key_begin
  /\ armor_body key_end (tl (lines text)) [] = Ok body /\ b64_decode body = Some data
  /\ exists ci kd op pub se, run head data = Ok (ci, kd, op, pub, se) /\ decrypt F K ci kd op pass se = Ok plain.
Lemma from_string_eq F K text pass : sk_from_string F K text pass =
  if negb (bytes_eqb (first_line (lines text)) key_begin) then Err EInvalidFormat else
  do? encoded <- armor_body key_end (tl (lines text)) [];
  do? decoded <- ok_or (b64_decode encoded) EDecode;
  run (sk_from_reader F K pass) decoded.
Proof. reflexivity. Qed.
(** The first stages, however it goes on. *)
Definition early (text : bytes) (l : list bytes) : Prop :=
  first_line (lines text) = key_begin ->
  In (collected key_end (tl (lines text)) []) l
  /\ (forall body data, armor_body key_end (tl (lines text)) [] = Ok body -> b64_decode body = Some data -> In data l).
Definition left_of_text (F : features) (K : keyops) (text : bytes) (pass : option bytes) : list bytes :=
  if bytes_eqb (first_line (lines text)) key_begin then
    collected key_end (tl (lines text)) [] ::
      match armor_body key_end (tl (lines text)) [] with
      | Ok body => match b64_decode body with Some data => data :: reader_left F K pass data | None => [] end
      | _ => []
      end
  else [].
Lemma text_got F K text pass h : owned_heap h -> exists l,
  got h (fst (mem_from_text F K text pass h)) (sk_from_string F K text pass) l (snd (mem_from_text F K text pass h))
  /\ Permutation l (left_of_text F K text pass) /\ early text l
  /\ (forall body data plain, stages F K text pass body data plain ->
        exists l', Permutation l ([body; data; plain] ++ l') /\ (forall k, sk_from_string F K text pass = Ok k -> l' = [])).
Proof.
    intros Ow. unfold mem_from_text. rewrite from_string_eq. unfold stages, early, left_of_text. cbn zeta.
    destruct (bytes_eqb (first_line (lines text)) key_begin) eqn:Eh; cbn [negb]; cycle 1.
    { exists []. cbn [fst snd]. split; [split; [reflexivity|apply change_refl]|]. split; [reflexivity|]. split; [intros X; rewrite X, bytes_eqb_refl in Eh; discriminate|]. intros body data plain (X & _). rewrite X, bytes_eqb_refl in Eh. discriminate. }
    unfold alloc.
    assert (T : forall (e : res privkey) (e' : res mem_key) c, match e, e' with Err a, Err b => a = b | Panic, Panic => True | _, _ => False end ->
      got h e' e [c] (update (length h) free_block (h ++ [mkBlock true c]))).
    { intros e e' c H. destruct e, e'; try contradiction; cbn [got]; [split; [exact H|]|]; apply change_temp, change_refl. }
    pose proof (collected_ok key_end (tl (lines text)) []) as CO.
    destruct (armor_body key_end (tl (lines text)) []) as [body|e|]; cbn [bind]; cycle 1.
    { eexists. cbn [fst snd]. split; [apply T; reflexivity|]. split; [reflexivity|]. split; [intros _; split; [left; reflexivity|discriminate]|]. intros ? ? ? (_ & X & _). discriminate X. }
    { eexists. cbn [fst snd]. split; [apply T; exact I|]. split; [reflexivity|]. split; [intros _; split; [left; reflexivity|discriminate]|]. intros ? ? ? (_ & X & _). discriminate X. }
    rewrite (CO body eq_refl). destruct (b64_decode body) as [data|] eqn:Eb; cbn [ok_or bind]; cycle 1.
    { eexists. cbn [fst snd]. split; [apply T; reflexivity|]. split; [reflexivity|].
      split; [intros _; split; [left; reflexivity|intros b d X Y; injection X as <-; congruence]|]. intros ? ? ? (_ & X & Y & _). injection X as <-. congruence. }
    rewrite <- app_assoc. cbn [List.app]. rewrite update_split. change (free_block (mkBlock true body)) with (mkBlock false body).
    assert (Ch : change h [] [body] (h ++ [mkBlock false body])).
    { replace (h ++ [mkBlock false body]) with (update (length h) free_block (h ++ [mkBlock true body])) by apply update_split.
      apply change_temp, change_refl. }
    change (h ++ [mkBlock false body; mkBlock true data]) with (h ++ [mkBlock false body] ++ [mkBlock true data]).
    rewrite app_assoc.
    pose proof (reader_got F K pass data ((h ++ [mkBlock false body]) ++ [mkBlock true data])
      (owned_alloc _ _ (owned_change _ _ _ Ch Ow))) as G.
    destruct (mem_from_reader F K pass (reader_new data) ((h ++ [mkBlock false body]) ++ [mkBlock true data])) as [k h']. cbn [fst snd] in *.
    replace (length (h ++ [mkBlock true body])) with (length (h ++ [mkBlock false body])) by (rewrite !app_length; reflexivity).
    exists ((data :: reader_left F K pass data) ++ [body]). split; [eapply got_trans; [exact Ch|apply got_temp, G]|].
    split; [symmetry; apply Permutation_cons_append|].
    split. { intros _. split; [apply in_or_app; right; left; reflexivity|]. intros b d X Y. injection X as <-. rewrite Eb in Y. injection Y as <-. left. reflexivity. }
    intros body' data' plain (_ & X & Y & ci & kd & op & pub & se & Z1 & Z2). injection X as <-. rewrite Eb in Y. injection Y as <-.
    destruct (reader_stage F K pass data ci kd op pub se plain Z1 Z2) as (l' & -> & H'). exists l'. split; [|exact H'].
    cbn [List.app]. etransitivity; [|apply perm_swap]. apply perm_skip.
    change (plain :: l' ++ [body]) with ((plain :: l') ++ [body]). symmetry. apply Permutation_cons_append.
Qed.
Lemma string_got F K text pass h : owned_heap h -> exists l,
  got h (fst (mem_from_string F K text pass h)) (sk_from_string F K text pass) l (snd (mem_from_string F K text pass h))
  /\ (forall p, pass = Some p -> In p l)
  /\ Permutation l (opt_list pass ++ left_of_text F K text pass)
  /\ early text l
  /\ (forall body data plain, stages F K text pass body data plain ->
        exists l', Permutation l (opt_list pass ++ [body; data; plain] ++ l') /\ (forall k, sk_from_string F K text pass = Ok k -> l' = [])).
Proof.
  intros Ow. unfold mem_from_string. destruct pass as [p|]; cbn [alloc_opt free_opt]; unfold alloc.
  - destruct (text_got F K text (Some p) (h ++ [mkBlock true p]) (owned_alloc p h Ow)) as (l & G & Pe & Er & H).
    exists (p :: l). destruct (mem_from_text F K text (Some p) _) as [k h']. cbn [fst snd free_opt] in *.
    split; [apply got_temp, G|]. split; [intros q E; injection E as <-; left; reflexivity|]. split; [apply perm_skip, Pe|].
    split. { intros X. destruct (Er X) as [X1 X2]. split; [right; exact X1|]. intros b d Y Z. right. exact (X2 b d Y Z). }
    intros body data plain S. destruct (H body data plain S) as (l' & P & H'). exists l'. split; [|exact H'].
    cbn [opt_list List.app]. apply perm_skip, P.
  - destruct (text_got F K text None h Ow) as (l & G & Pe & Er & H). exists l. destruct (mem_from_text F K text None h) as [k h']. cbn [fst snd free_opt] in *.
    split; [exact G|]. split; [discriminate|]. split; [exact Pe|]. split; [exact Er|exact H].
Qed.
Lemma path_got F K text pass h : owned_heap h -> exists l,
  got h (fst (mem_from_path F K text pass h)) (sk_from_string F K text pass) (text :: l) (snd (mem_from_path F K text pass h))
  /\ (forall p, pass = Some p -> In p l)
  /\ Permutation l (opt_list pass ++ left_of_text F K text pass)
  /\ early text l
  /\ (forall body data plain, stages F K text pass body data plain ->
        exists l', Permutation l (opt_list pass ++ [body; data; plain] ++ l') /\ (forall k, sk_from_string F K text pass = Ok k -> l' = [])).
Proof.
  intros Ow. unfold mem_from_path, alloc. destruct (string_got F K text pass (h ++ [mkBlock true text]) (owned_alloc text h Ow)) as (l & G & H).
  exists l. destruct (mem_from_string F K text pass _) as [k h']. cbn [fst snd] in *. split; [apply got_temp, G|exact H].
Qed.
Lemma cut_left F data kt sec pub rest : known kt -> key_kind kt -> sec_ok F kt pub sec -> (forall c, run read_string rest <> Ok c) ->
  data = enc_bytes (kt_name kt) ++ enc_sec pub sec ++ rest -> key_left F (reader_new data) = parts sec.
Proof.
  intros H1 H2 H3 H4 ->. destruct (cut_reads F kt sec pub rest H1 H2 H3 H4) as (r0 & s & e & s' & D1 & D2 & D3).
  exact (cut_collect _ _ _ _ _ _ _ _ _ _ D1 (known_name_ok _ H1) D2 D3).
Qed.
Lemma bytes_got F data h :
  got h (fst (mem_from_bytes F data h)) (sk_from_bytes F data) (key_left F (reader_new data)) (snd (mem_from_bytes F data h)).
Proof.
  destruct (key_got F (reader_new data) h) as (G & _). unfold mem_from_bytes, sk_from_bytes, run.
  destruct (mem_read_private_key F (reader_new data) h) as [[k s] h']. exact G.
Qed.

(** ** Writing and signing *)
Lemma contents_at (h : heap) c h2 : contents (h ++ mkBlock true c :: h2) (length h) = c.
Proof. unfold contents. rewrite nth_error_app2, Nat.sub_diag by lia. reflexivity. Qed.
Lemma write_change k h : change h [] (match sk_encode (load h k), write_section (load h k) with
    | Ok data, Ok section => [section; data; b64_encode data; split_lines 0 (b64_encode data)]
    | _, _ => []
    end) (mem_write k h).
Proof.
  unfold mem_write, mem_encode. destruct (sk_encode (load h k)) as [data|e|]; [|apply change_refl..].
  destruct (write_section (load h k)) as [section|e|]; [|apply change_refl..]. unfold alloc. cbn zeta.
  rewrite <- app_assoc. cbn [List.app]. rewrite update_split. change (free_block (mkBlock true section)) with (mkBlock false section).
  change (h ++ [mkBlock false section; mkBlock true data]) with (h ++ [mkBlock false section] ++ [mkBlock true data]). rewrite app_assoc.
  assert (C : change h [] [section] (h ++ [mkBlock false section])).
  { replace (h ++ [mkBlock false section]) with (update (length h) free_block (h ++ [mkBlock true section])) by apply update_split.
    apply change_temp, change_refl. }
  replace (length (h ++ [mkBlock true section])) with (length (h ++ [mkBlock false section])) by (rewrite !app_length; reflexivity).
  set (g := h ++ [mkBlock false section]) in *. rewrite contents_at.
  set (g2 := g ++ [mkBlock true data]). rewrite contents_at.
  set (g3 := g2 ++ [mkBlock true (b64_encode data)]).
  assert (D : change g [] [data; b64_encode data; split_lines 0 (b64_encode data)]
    (update (length g) free_block (update (length g2) free_block (update (length g3) free_block (g3 ++ [mkBlock true (split_lines 0 (b64_encode data))]))))).
  { apply change_temp. fold g2. apply change_temp. fold g3. apply change_temp, change_refl. }
  destruct (change_trans _ _ _ _ _ _ _ C D) as (A1 & A2 & A3 & A4). split; [exact A1|]. split; [|split; [exact A3|exact A4]].
  rewrite A2. unfold nonzero. apply Permutation_app_tail. rewrite !filter_app. etransitivity; [apply Permutation_app_comm|].
  rewrite <- filter_app. reflexivity.
Qed.
Lemma sign_change F k h : change h [] (match sk_kind (load h k) with
    | SkRsa r => if f_rsa F then match rsa_der r with Ok der => [der] | _ => [] end else []
    | _ => []
    end) (mem_sign F k h).
Proof.
  unfold mem_sign. destruct (sk_kind (load h k)) as [r|c b|w|b|w]; try apply change_refl.
  destruct (f_rsa F); [|apply change_refl]. destruct (rsa_der r) as [der|e|]; [|apply change_refl..]. apply change_temp, change_refl.
Qed.

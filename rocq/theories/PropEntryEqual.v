(** Property C139: what [==] on allowed-signers entries tells, and what the printed line tells. *)
From Coq Require Import Lia.
From Verif Require Import Base BaseFacts Str StrFacts Base64 PropBase64 SpecText KeyType KeyTypeFacts PubKeyType PubKey PubKeyFacts Equal PropEqual
  Chrono AllowedSigner SpecSigner SignerFacts EntryFacts FileFacts PropSigner TbsFacts SshSigFacts RewriteFacts PropRewrite PropZone EqualSigner.
From Verif Require DebugFacts.

(** No principal and no namespace contains a space. *)
Definition unspaced (a : allowed_signer) : Prop :=
  Forall (fun p => ~ In x20 p) (as_principals a) /\ forall l, as_namespaces a = Some l -> Forall (fun n => ~ In x20 n) l.

Lemma signer_eqb_eq a b : signer_eqb a b = true <-> a = b.
Proof.
  assert (Z : forall x y, opt_z_eqb x y = true <-> x = y).
  { intros [x|] [y|]; cbn; rewrite ?Z.eqb_eq; split; congruence. }
  assert (T : forall x y, opt_texts_eqb x y = true <-> x = y).
  { intros [x|] [y|]; cbn; rewrite ?texts_eqb_eq; split; congruence. }
  unfold signer_eqb. rewrite !andb_true_iff, texts_eqb_eq, Bool.eqb_true_iff, T, !Z, pubkey_eqb_eq. destruct a, b. cbn.
  split; [intros (((((-> & ->) & ->) & ->) & ->) & ->); reflexivity|intros E; injection E; intros; subst; auto 10].
Qed.
Lemma signers_eqb_eq a : forall b, signers_eqb a b = true <-> a = b.
Proof.
  induction a as [|x a IH]; intros [|y b]; cbn [signers_eqb]; try (split; congruence). rewrite andb_true_iff, signer_eqb_eq, IH.
  split; [intros [-> ->]; reflexivity|intros E; injection E; auto].
Qed.

(** Texts with spaces. *)
Lemma sp_inj (w w' r r' : bytes) : ~ In x20 w -> ~ In x20 w' -> w ++ x20 :: r = w' ++ x20 :: r' -> w = w' /\ r = r'.
Proof.
  revert w'. induction w as [|x w IH]; intros [|y w'] N N' E; cbn [app] in E.
  - injection E as ->. auto.
  - exfalso. injection E as E _. apply N'. left. congruence.
  - exfalso. injection E as E _. apply N. left. congruence.
  - injection E as -> E. destruct (IH w') as [-> ->]; auto; intros H; [apply N|apply N']; right; exact H.
Qed.
Lemma sp_end (w w' r' : bytes) : ~ In x20 w -> w <> w' ++ x20 :: r'.
Proof. intros N ->. apply N, in_app_iff. right. left. reflexivity. Qed.
Lemma commas_inj l : forall m, Forall (fun x => x <> [] /\ ~ In x2c x) l -> Forall (fun x => x <> [] /\ ~ In x2c x) m -> commas l = commas m -> l = m.
Proof.
  intros m Hl Hm E. assert (G : forall k, Forall (fun x => x <> [] /\ ~ In x2c x) k -> k <> [] -> comma_list k (commas k)).
  { intros k Hk N. split; [exact N|]. split; [|reflexivity]. eapply Forall_impl; [|exact Hk]. intros x (_ & Hx). exact Hx. }
  assert (Z : forall x k, Forall (fun y => y <> [] /\ ~ In x2c y) (x :: k) -> commas (x :: k) <> []).
  { intros x k Hk. apply Forall_inv in Hk. destruct Hk as [Hx _]. destruct k; cbn [commas]; destruct x; congruence || discriminate. }
  destruct l as [|x l], m as [|y m]; [reflexivity|exfalso; symmetry in E; apply (Z _ _ Hm E)|exfalso; apply (Z _ _ Hl E)|].
  pose proof (comma_split _ _ (G _ Hl ltac:(discriminate))) as A. pose proof (comma_split _ _ (G _ Hm ltac:(discriminate))) as B.
  rewrite E in A. congruence.
Qed.
Lemma commas_no_space l : Forall (fun x => ~ In x20 x) l -> ~ In x20 (commas l).
Proof. intros H I. apply commas_in in I. destruct I as [I|(x & Hx & I)]; [discriminate|]. rewrite Forall_forall in H. apply (H x Hx I). Qed.

(** Words that are options begin with c, n or v; names of key types do not. *)
Definition optw (w : bytes) : Prop := exists h t, w = h :: t /\ In h [x63; x6e; x76].
Lemma name_not_option kt : known kt -> ~ optw (kt_name kt) /\ ~ In x20 (kt_name kt).
Proof.
  intros K. assert (G : match kt_name kt with h :: _ => negb (existsb (byte_eqb h) [x63; x6e; x76]) | [] => false end
    && negb (existsb (byte_eqb x20) (kt_name kt)) = true).
  { revert kt K. apply known_forall. unfold key_types. repeat constructor. }
  apply andb_true_iff in G. destruct G as [G1 G2]. split.
  - intros (h & t & E & I). rewrite E in G1. apply negb_true_iff in G1. rewrite <- not_true_iff_false in G1. apply G1, existsb_exists.
    exists h. split; [exact I|apply byte_eqb_eq; reflexivity].
  - intros I. apply negb_true_iff in G2. rewrite <- not_true_iff_false in G2. apply G2, existsb_exists. exists x20. split; [exact I|apply byte_eqb_eq; reflexivity].
Qed.
Lemma spaced_front ws r : exists y, spaced ws ++ x20 :: r = x20 :: y.
Proof. destruct ws; cbn; eauto. Qed.
Lemma words_inj n n' r r' : ~ optw n -> ~ optw n' -> ~ In x20 n -> ~ In x20 n' -> forall ws ws',
  Forall (fun w => optw w /\ ~ In x20 w) ws -> Forall (fun w => optw w /\ ~ In x20 w) ws' ->
  spaced ws ++ x20 :: n ++ x20 :: r = spaced ws' ++ x20 :: n' ++ x20 :: r' -> ws = ws' /\ n = n' /\ r = r'.
Proof.
  intros O O' N N'. induction ws as [|w ws IH]; intros [|w' ws'] F F' E; cbn [spaced map concat app] in E.
  - injection E as E. apply sp_inj in E; [|assumption..]. destruct E as [-> ->]. auto.
  - exfalso. injection E as E. apply Forall_inv in F'. destruct F' as [P' S']. rewrite <- app_assoc in E.
    destruct (spaced_front ws' (n' ++ x20 :: r')) as (y & Y). unfold spaced in Y. rewrite Y in E. apply sp_inj in E; [|assumption..]. destruct E as [-> _]. contradiction.
  - exfalso. injection E as E. apply Forall_inv in F. destruct F as [P S]. rewrite <- app_assoc in E.
    destruct (spaced_front ws (n ++ x20 :: r)) as (y & Y). unfold spaced in Y. rewrite Y in E. apply sp_inj in E; [|assumption..]. destruct E as [-> _]. contradiction.
  - injection E as E. apply Forall_cons_iff in F, F'. destruct F as [[P S] F], F' as [[P' S'] F']. rewrite <- !app_assoc in E.
    destruct (spaced_front ws (n ++ x20 :: r)) as (y & Y). destruct (spaced_front ws' (n' ++ x20 :: r')) as (y' & Y').
    unfold spaced in Y, Y'. rewrite Y, Y' in E. apply sp_inj in E; [|assumption..]. destruct E as [-> E]. subst y'. rewrite <- Y' in Y.
    destruct (IH ws' F F' Y) as (-> & -> & ->). auto.
Qed.
Lemma z_no_space z : ~ In x20 (display_z z).
Proof. intros H. destruct (display_z_plain z _ H) as (E & _). congruence. Qed.
Lemma entry_words_opt a : unspaced a -> Forall (fun w => optw w /\ ~ In x20 w) (entry_words a).
Proof.
  intros (_ & N). assert (S : forall n z, optw n -> ~ In x20 n -> optw (n ++ z)).
  { intros n z (h & t & -> & I) _. exists h, (t ++ z). auto. }
  assert (Q : forall n z, ~ In x20 n -> ~ In x20 z -> ~ In x20 (n ++ z)) by (intros n z A B I; apply in_app_iff in I; tauto).
  assert (P : forall n, match n with h :: _ => existsb (byte_eqb h) [x63; x6e; x76] | [] => false end && negb (existsb (byte_eqb x20) n) = true -> optw n /\ ~ In x20 n).
  { intros n H. apply andb_true_iff in H. destruct H as [H1 H2]. split.
    - destruct n as [|h t]; [discriminate|]. apply existsb_exists in H1. destruct H1 as (c & I & E). apply byte_eqb_eq in E. subst c. exists h, t. auto.
    - intros I. apply negb_true_iff in H2. rewrite <- not_true_iff_false in H2. apply H2, existsb_exists. exists x20. split; [exact I|apply byte_eqb_eq; reflexivity]. }
  unfold entry_words, cert_words, ns_words, bound_words. rewrite !Forall_app.
  split; [destruct (as_cert_authority a); [repeat constructor; apply P; reflexivity|constructor]|].
  split; [destruct (as_namespaces a) as [l|]; [|constructor]; constructor; [|constructor]; destruct (P (s2b "namespaces=") eq_refl);
          split; [auto|apply Q; [assumption|apply commas_no_space, N; reflexivity]]|].
  split; [destruct (as_valid_after a) as [z|]; [|constructor]; constructor; [|constructor]; destruct (P (s2b "valid-after=") eq_refl)
         |destruct (as_valid_before a) as [z|]; [|constructor]; constructor; [|constructor]; destruct (P (s2b "valid-before=") eq_refl)];
    (split; [auto|apply Q; [assumption|apply z_no_space]]).
Qed.
Lemma z_inj x y : display_z x = display_z y -> x = y.
Proof. intros E. eapply DebugFacts.decimal_text_inj; [apply display_z_decimal|]. rewrite E. apply display_z_decimal. Qed.
Lemma words_options a b : (forall l, as_namespaces a = Some l -> Forall (fun x => x <> [] /\ ~ In x2c x) l) ->
  (forall l, as_namespaces b = Some l -> Forall (fun x => x <> [] /\ ~ In x2c x) l) -> entry_words a = entry_words b ->
  as_cert_authority a = as_cert_authority b /\ as_namespaces a = as_namespaces b /\ as_valid_after a = as_valid_after b /\ as_valid_before a = as_valid_before b.
Proof.
  intros Na Nb E. unfold entry_words, cert_words, ns_words, bound_words in E.
  assert (C : forall l m, as_namespaces a = Some l -> as_namespaces b = Some m -> s2b "namespaces=" ++ commas l = s2b "namespaces=" ++ commas m -> l = m)
    by (intros l m A B X; apply app_inv_head in X; apply commas_inj; auto).
  assert (V : forall n x y, n ++ display_z x = n ++ display_z y -> x = y) by (intros n x y X; apply app_inv_head in X; apply z_inj, X).
  destruct (as_cert_authority a), (as_cert_authority b), (as_namespaces a) as [l|], (as_namespaces b) as [m|],
    (as_valid_after a) as [p|], (as_valid_after b) as [p'|], (as_valid_before a) as [q|], (as_valid_before b) as [q'|];
    cbn [app] in E; try discriminate E;
    repeat match type of E with
    | _ :: _ = _ :: _ => let X := fresh "X" in apply (f_equal (fun z => (hd [] z, tl z))) in E; cbn [hd tl] in E;
        pose proof (f_equal fst E) as X; apply (f_equal snd) in E; cbn [fst snd] in X, E
    end;
    repeat match goal with
    | X : s2b "namespaces=" ++ _ = s2b "namespaces=" ++ _ |- _ => apply (C _ _ eq_refl eq_refl) in X
    | X : ?n ++ display_z _ = ?n ++ display_z _ |- _ => apply V in X
    | X : _ = _ ++ _ |- _ => discriminate X
    | X : _ ++ _ = _ |- _ => discriminate X
    end; try discriminate; subst; auto.
Qed.

(** What reading guarantees. *)
Lemma read_parts tz s a : as_from_string tz s = Ok a ->
  Forall (fun x => x <> [] /\ ~ In x2c x) (as_principals a)
  /\ (forall l, as_namespaces a = Some l -> Forall (fun x => x <> [] /\ ~ In x2c x) l) /\ exists t, pk_from_string t = Ok (as_key a).
Proof.
  intros H. destruct (C62_entries_well_formed tz s a H) as (_ & P & Q & _ & front & kt & kd & _ & K). split; [|split; [|eauto]].
  - rewrite Forall_forall in *. auto.
  - destruct (C63_entry_fields tz s a H) as (pw & ows & kt' & kd' & _ & _ & N & _). intros l E. apply N in E. destruct E as (v & _ & items & (_ & C & _) & ->).
    rewrite Forall_forall in *. intros x X. unfold without_empty in X. apply filter_In in X. destruct X as [X L]. split; [|auto]. intros ->. discriminate.
Qed.
Lemma key_line t k : pk_from_string t = Ok k -> exists r, pk_display k = Ok (kt_name (pk_type k) ++ x20 :: r) /\ known (pk_type k).
Proof.
  intros H. apply string_key_ok in H. destruct H as (K & _ & O). cbn in K, O. unfold pk_display.
  rewrite pk_encode_enc by (rewrite ?(canon_ok _ _ O); auto). cbn [bind]. destruct (pk_comment k); eexists; split; [reflexivity|exact K|reflexivity|exact K].
Qed.
Lemma key_line_inj t u j k : pk_from_string t = Ok j -> pk_from_string u = Ok k -> pk_display j = pk_display k -> j = k.
Proof.
  intros J K E. apply pubkey_eqb_eq. apply (C119_read_public_keys t u j k J K). apply string_key_ok in J, K.
  destruct J as (J1 & _ & J3), K as (K1 & _ & K3). cbn in J1, J3, K1, K3. unfold pk_display in E.
  assert (Ej : exists x, pk_encode j = Ok x) by (rewrite pk_encode_enc by (rewrite ?(canon_ok _ _ J3); auto); eauto).
  assert (Ek : exists x, pk_encode k = Ok x) by (rewrite pk_encode_enc by (rewrite ?(canon_ok _ _ K3); auto); eauto).
  destruct Ej as (x & Ej), Ek as (y & Ek). rewrite Ej, Ek in *. cbn [bind] in E.
  destruct (name_not_option _ J1) as [_ Nj], (name_not_option _ K1) as [_ Nk].
  assert (B : forall d, ~ In x20 (b64_encode d)) by (intros d H; destruct (b64_plain d _ H) as (C & _); congruence).
  assert (T : forall r r' : bytes, kt_name (pk_type j) ++ [space] ++ r = kt_name (pk_type k) ++ [space] ++ r' -> pk_type j = pk_type k /\ r = r').
  { intros r r' Q. apply sp_inj in Q; [|assumption..]. destruct Q as [Q ->]. split; [|reflexivity].
    pose proof (known_name_ok _ J1) as A. rewrite Q, (known_name_ok _ K1) in A. apply ok_inj in A. congruence. }
  assert (D : forall d e, b64_encode d = b64_encode e -> d = e).
  { intros d e Q. pose proof (proj1 (C15_base64_round_trip d)) as A. rewrite Q, (proj1 (C15_base64_round_trip e)) in A. congruence. }
  destruct (pk_comment j) as [c|], (pk_comment k) as [c'|]; apply ok_inj in E; apply T in E; destruct E as [T1 E].
  - apply sp_inj in E; [|apply B..]. destruct E as [E ->]. apply D in E. subst. auto.
  - exfalso. symmetry in E. apply (sp_end (b64_encode y) _ _ (B y) E).
  - exfalso. apply (sp_end (b64_encode x) _ _ (B x) E).
  - apply D in E. subst. auto.
Qed.

(** ** C139 *)
(** [==] compares everything, in order. *)
Theorem C139_compares_everything : forall a b : allowed_signer, signer_eqb a b = true <->
  as_principals a = as_principals b /\ as_cert_authority a = as_cert_authority b /\ as_namespaces a = as_namespaces b
  /\ as_valid_after a = as_valid_after b /\ as_valid_before a = as_valid_before b /\ as_key a = as_key b.
Proof.
  intros a b. rewrite signer_eqb_eq. split; [intros ->; auto 10|]. destruct a, b. cbn. intros (-> & -> & -> & -> & -> & ->). reflexivity.
Qed.
Print Assumptions C139_compares_everything.

(** Entries that were read and have no spaces in their texts are equal exactly if they are printed the same. *)
Theorem C139_same_line : forall (tz tz' : timezone) (s t : bytes) (a b : allowed_signer),
  as_from_string tz s = Ok a -> as_from_string tz' t = Ok b -> unspaced a -> unspaced b ->
  (signer_eqb a b = true <-> as_display a = as_display b) /\ exists line, as_display a = Ok line.
Proof.
  intros tz tz' s t a b A B Ua Ub. apply read_parts in A, B. destruct A as (Pa & Na & ta & Ka), B as (Pb & Nb & tb & Kb).
  destruct (key_line _ _ Ka) as (ra & Da & Ta), (key_line _ _ Kb) as (rb & Db & Tb).
  split; [|eexists; apply (display_line a _ Da)]. rewrite signer_eqb_eq. split; [intros ->; reflexivity|]. intros E.
  rewrite (display_line a _ Da), (display_line b _ Db) in E. apply ok_inj in E.
  destruct (spaced_front (entry_words a) (kt_name (pk_type (as_key a)) ++ x20 :: ra)) as (y & Y).
  destruct (spaced_front (entry_words b) (kt_name (pk_type (as_key b)) ++ x20 :: rb)) as (y' & Y').
  rewrite Y, Y' in E. apply sp_inj in E; [|apply commas_no_space, (proj1 Ua)|apply commas_no_space, (proj1 Ub)]. destruct E as [Ep Er].
  apply commas_inj in Ep; [|assumption..]. subst y'. rewrite <- Y' in Y. destruct (name_not_option _ Ta) as [Oa Sa], (name_not_option _ Tb) as [Ob Sb].
  apply words_inj in Y; try assumption; try (apply entry_words_opt; assumption). destruct Y as (Ew & En & ->).
  apply words_options in Ew; [|assumption..]. destruct Ew as (E1 & E2 & E3 & E4).
  assert (Ek : as_key a = as_key b) by (eapply key_line_inj; [exact Ka|exact Kb|]; rewrite Da, Db, En; reflexivity).
  destruct a, b. cbn in *. subst. reflexivity.
Qed.
Print Assumptions C139_same_line.

(** Entries of lines without double quotes have no spaces in their texts. *)
Theorem C139_lines_without_quotes : forall (tz : timezone) (s : bytes) (a : allowed_signer),
  as_from_string tz s = Ok a -> ~ In x22 s -> unspaced a.
Proof.
  intros tz s a H Q. apply C62_accepted_lines in H.
  destruct H as (_ & pw & pt & ows & kt & kd & o & Hw & Hu & (_ & _ & Hc) & _ & Ho & _ & _ & _ & En & _).
  assert (W : forall w, In w (pw :: ows ++ [kt; kd]) -> ~ In x20 w /\ ~ In x22 w).
  { intros w I. assert (Nq : ~ In x22 w) by (intros J; apply Q; eapply words_bytes; eassumption). split; [|exact Nq].
    pose proof (line_words_words _ _ Hw) as F. rewrite Forall_forall in F. destruct (F w I) as (_ & p & q & P & D & E).
    destruct D as [->|(c & _ & ->)]; [|exfalso; apply Nq; rewrite E, in_app_iff; right; left; reflexivity].
    rewrite E, app_nil_r. intros J. destruct (P _ J) as (X & _). congruence. }
  assert (U : forall v u, unquoted v u -> ~ In x20 v -> ~ In x20 u).
  { intros v u (i & j & E & _) N I. apply N. rewrite E, !in_app_iff. auto. }
  assert (G : forall l v, ~ In x20 v -> v = commas l -> Forall (fun p => ~ In x20 p) l).
  { intros l v N E. apply Forall_forall. intros x X I. apply N. rewrite E. eapply in_commas; eassumption. }
  split; [apply (G _ pt); [eapply U; [exact Hu|apply W; left; reflexivity]|exact Hc]|].
  assert (O : forall o ws o', option_words tz o ws o' -> (forall w, In w ws -> ~ In x20 w) -> (forall l, o_namespaces o = Some l -> Forall (fun n => ~ In x20 n) l) ->
    forall l, o_namespaces o' = Some l -> Forall (fun n => ~ In x20 n) l).
  { induction 1 as [|o0 o1 o2 w ws H1 _ IH]; intros S N; [exact N|]. apply IH; [intros x X; apply S; right; exact X|].
    destruct H1 as [name v|name v l (v0 & Hv & _ & Hx) _ _ _ (_ & _ & Hl)|name v|name v]; cbn [o_namespaces]; try exact N.
    intros l0 E. injection E as <-. assert (Sv : ~ In x20 v).
    { eapply U; [exact Hv|]. intros I. destruct Hx as [Hx|[_ ->]]; [|destruct I]. apply (S w (or_introl eq_refl)). rewrite Hx, in_app_iff. right. right. exact I. }
    apply Forall_forall. intros x X. unfold without_empty in X. apply filter_In in X. destruct X as [X _]. pose proof (G l v Sv Hl) as F. rewrite Forall_forall in F. auto. }
  rewrite En. apply (O _ _ _ Ho); [intros w I; apply W; right; apply in_app_iff; left; exact I|discriminate].
Qed.
Print Assumptions C139_lines_without_quotes.

(** The same for files, entry by entry. *)
Theorem C139_files : forall (tz tz' : timezone) (s t : bytes) (l m : list allowed_signer),
  signers_from_string tz s = Ok l -> signers_from_string tz' t = Ok m -> ~ In x22 s -> ~ In x22 t ->
  (signers_eqb l m = true <-> map as_display l = map as_display m).
Proof.
  assert (R : forall tz s l, signers_from_string tz s = Ok l -> ~ In x22 s -> Forall (fun a => exists x, as_from_string tz x = Ok a /\ ~ In x22 x) l).
  { intros tz s l H Q. unfold signers_from_string in H.
    assert (Sq : forall x, In x (lines s) -> ~ In x22 (trim x)).
    { intros x X I. apply Q. destruct (entry_in s x X) as (p & q & -> & _). rewrite !in_app_iff. auto. }
    revert l H. generalize 0. induction (lines s) as [|x ls IH]; intros n l H; cbn [read_lines] in H; [apply ok_inj in H; subst; constructor|].
    specialize (IH (fun y Y => Sq y (or_intror Y))).
    destruct (negb (nonempty (trim x)) || starts_with_byte pound (trim x)); [eapply IH, H|].
    destruct (as_from_string tz (trim x)) as [a|e|] eqn:A; [|destruct e; discriminate|discriminate].
    destruct (read_lines tz (S n) ls) as [r|e|] eqn:Er; cbn [bind] in H; try discriminate. apply ok_inj in H. subst l.
    constructor; [exists (trim x); split; [exact A|apply Sq; left; reflexivity]|eapply IH, Er]. }
  intros tz tz' s t l m L M Q Q'. apply R in L, M; try assumption. rewrite signers_eqb_eq. split; [intros ->; reflexivity|]. clear R Q Q'.
  revert m M. induction L as [|a l (x & A & Qa) _ IH]; intros [|b m] M E; try discriminate; [reflexivity|]. cbn [map] in E. injection E as E1 E2.
  apply Forall_cons_iff in M. destruct M as [(y & B & Qb) M]. f_equal; [|apply IH; assumption]. apply signer_eqb_eq.
  apply (C139_same_line tz tz' x y a b A B); [eapply C139_lines_without_quotes; eassumption..|exact E1].
Qed.
Print Assumptions C139_files.

(** With a quoted space two different entries are printed the same: one is a certificate authority. *)
Theorem C139_same_line_refuted : exists (tz : timezone) (s t : bytes) (a b : allowed_signer),
  as_from_string tz s = Ok a /\ as_from_string tz t = Ok b /\ as_display a = as_display b /\ signer_eqb a b = false
  /\ as_cert_authority a = false /\ as_cert_authority b = true.
Proof.
  exists utc, (x22 :: s2b "a cert-authority" ++ x22 :: x20 :: ex_key_text), (s2b "a cert-authority " ++ ex_key_text). eexists _, _.
  split; [vm_compute; reflexivity|]. split; [vm_compute; reflexivity|]. split; [vm_compute; reflexivity|]. split; [vm_compute; reflexivity|].
  split; reflexivity.
Qed.
Print Assumptions C139_same_line_refuted.
(** The same principals in another order make another entry. *)
Theorem C139_order_refuted : exists (tz : timezone) (s t : bytes) (a b : allowed_signer),
  as_from_string tz s = Ok a /\ as_from_string tz t = Ok b /\ (forall p, In p (as_principals a) <-> In p (as_principals b))
  /\ as_cert_authority a = as_cert_authority b /\ as_namespaces a = as_namespaces b /\ as_key a = as_key b /\ signer_eqb a b = false.
Proof.
  exists utc, (s2b "a,b " ++ ex_key_text), (s2b "b,a " ++ ex_key_text). eexists _, _.
  split; [vm_compute; reflexivity|]. split; [vm_compute; reflexivity|]. split; [intros p; cbn; tauto|]. do 3 (split; [reflexivity|]). vm_compute. reflexivity.
Qed.
Print Assumptions C139_order_refuted.

(** Spelling, order of the options and comments have no part in [==]. *)
Example C139_case : exists a b, as_from_string utc (s2b "a,b namespaces=git,file valid-before=20250101Z " ++ ex_key_text) = Ok a
  /\ as_from_string utc (s2b "  a,b  Valid-Before=20250101000000ZZ NAMESPACES=,git,,file " ++ ex_key_text ++ s2b " # old") = Ok b
  /\ signer_eqb a b = true /\ unspaced a /\ as_namespaces a <> None /\ as_valid_before a <> None.
Proof.
  eexists _, _. split; [vm_compute; reflexivity|]. split; [vm_compute; reflexivity|]. split; [vm_compute; reflexivity|].
  split; [|split; discriminate]. eapply (C139_lines_without_quotes utc (s2b "a,b namespaces=git,file valid-before=20250101Z " ++ ex_key_text)); [vm_compute; reflexivity|].
  intros I. apply contains_iff in I. vm_compute in I. discriminate.
Qed.
Example C139_case_files : exists l m, signers_from_string utc (s2b "a " ++ ex_key_text ++ x0a :: s2b "b " ++ ex_key_text) = Ok l
  /\ signers_from_string utc (s2b "a " ++ ex_key_text ++ x0a :: s2b "c " ++ ex_key_text) = Ok m /\ length l = 2 /\ signers_eqb l m = false /\ signers_eqb l l = true.
Proof.
  eexists _, _. split; [vm_compute; reflexivity|]. split; [vm_compute; reflexivity|]. split; [reflexivity|]. split; vm_compute; reflexivity.
Qed.

(** Property C129: what the error for a refused attestation tells. *)
From Coq Require Import Lia.
From Verif Require Import Base BaseFacts SpecWire WireFacts SpecKeys KeyType PubKeyType AllowedSigner SpecSigner FileFacts TbsFacts
  Fido SpecFido FidoFacts PropFido X509 SpecX509 X509Facts PropX509 SpecAttest.

(** ** Entries *)
Lemma integer_no l : no_integer l <-> read_integer l = Err EParsingError.
Proof.
  split.
  - intros H. destruct (integer_cases l) as [(z & r & E)|E]; [|exact E]. apply integer_iff in E. destruct E as (a & Ha & E).
    exfalso. exact (H z a r E Ha).
  - intros H z a r E Ha. assert (X : read_integer l = Ok (z, r)) by (apply integer_iff; eauto). congruence.
Qed.
Lemma string_no l : no_string l <-> cbor_bytes l = None.
Proof.
  split.
  - intros H. destruct (cbor_bytes l) as [[s r]|] eqn:E; [|reflexivity]. apply bytes_iff in E. destruct E as (a & Ha & E).
    exfalso. exact (H s a r E Ha).
  - intros H s a r E Ha. assert (X : cbor_bytes l = Some (s, r)) by (apply bytes_iff; eauto). congruence.
Qed.
Lemma undefined_no l : (forall r, l <> xf7 :: r) <-> cbor_undefined l = None.
Proof.
  split.
  - intros H. destruct (cbor_undefined l) as [r|] eqn:E; [|reflexivity]. apply undefined_iff in E. exfalso. exact (H r E).
  - intros H r E. apply undefined_iff in E. congruence.
Qed.
Lemma map_err_err {A} (r : res A) e x : r <> Panic -> map_err r e = Err x <-> (exists y, r = Err y) /\ x = e.
Proof. destruct r; cbn; intros N; split; try congruence; intros H. 1: destruct H as [[y H] _]; discriminate. 1: injection H as <-; eauto. destruct H as [_ ->]; reflexivity. Qed.
Lemma integer_nopanic l : read_integer l <> Panic.
Proof. destruct (integer_cases l) as [(z & r & E)|E]; rewrite E; discriminate. Qed.
Lemma integer_err l : (exists y, read_integer l = Err y) <-> no_integer l.
Proof.
  rewrite integer_no. split; [|eauto]. intros [y E]. destruct (integer_cases l) as [(z & r & E')|E']; [congruence|exact E'].
Qed.
Lemma entry_err k l e : cose_entry k l = Err e <-> entry_refused l e.
Proof.
  split.
  - unfold cose_entry. destruct (read_integer l) as [[key l1]|x|] eqn:E; [|intros H; cbn [bind] in H; injection H as <-|discriminate].
    2: { assert (N : no_integer l) by (apply integer_err; eauto). assert (x = EParsingError) by (apply integer_no in N; congruence). subst x. constructor; exact N. }
    cbn [bind]. apply integer_iff in E. destruct E as (a & Ha & ->).
    destruct (Z.eqb_spec key (-1)) as [->|N1]; [|destruct (Z.eqb_spec key 1) as [->|N2]; [|destruct (Z.eqb_spec key 3) as [->|N3]]].
    1-3: destruct (map_err (read_integer l1) _) as [[v l2]|x|] eqn:E2; try discriminate; cbn [bind]; intros H; injection H as <-;
         apply map_err_err in E2; [|apply integer_nopanic]; destruct E2 as [E2 ->]; apply integer_err in E2; constructor; assumption.
    destruct ((key =? -2)%Z || (key =? -3)%Z) eqn:Ek.
    + destruct (cbor_bytes l1) as [[v l2]|] eqn:E2; cbn [ok_or bind]; [discriminate|]. intros H; injection H as <-.
      apply string_no in E2. apply (ER_coord key); auto. lia.
    + destruct (cbor_undefined l1) as [l2|] eqn:E2; cbn [ok_or bind]; [discriminate|]. intros H; injection H as <-.
      apply (ER_unknown key); [cbn; lia|exact Ha|apply undefined_no; exact E2|apply display_z_decimal].
  - intros H. unfold cose_entry. destruct H as [l H|a l Ha H|a l Ha H|a l Ha H|k0 a l Hk Ha H|k0 a l t Hk Ha H Ht].
    + apply integer_no in H. rewrite H. reflexivity.
    + rewrite (proj2 (integer_iff (a ++ l) _ l)) by eauto. cbn [bind Z.eqb Pos.eqb]. apply integer_no in H. rewrite H. reflexivity.
    + rewrite (proj2 (integer_iff (a ++ l) _ l)) by eauto. cbn [bind Z.eqb Pos.eqb]. apply integer_no in H. rewrite H. reflexivity.
    + rewrite (proj2 (integer_iff (a ++ l) _ l)) by eauto. cbn [bind Z.eqb Pos.eqb]. apply integer_no in H. rewrite H. reflexivity.
    + rewrite (proj2 (integer_iff (a ++ l) _ l)) by eauto. cbn [bind].
      replace (k0 =? -1)%Z with false by lia. replace (k0 =? 1)%Z with false by lia. replace (k0 =? 3)%Z with false by lia.
      replace ((k0 =? -2)%Z || (k0 =? -3)%Z) with true by lia. apply string_no in H. rewrite H. reflexivity.
    + rewrite (proj2 (integer_iff (a ++ l) _ l)) by eauto. cbn [bind]. cbn in Hk.
      replace (k0 =? -1)%Z with false by lia. replace (k0 =? 1)%Z with false by lia. replace (k0 =? 3)%Z with false by lia.
      replace ((k0 =? -2)%Z || (k0 =? -3)%Z) with false by lia. apply undefined_no in H. rewrite H.
      rewrite (decimal_fun k0 t (display_z k0) Ht (display_z_decimal k0)). reflexivity.
Qed.
Lemma entries_err n : forall k l e, cose_entries n k l = Err e <->
  exists is a r, items_of is a /\ length is < n /\ l = a ++ r /\ entry_refused r e.
Proof.
  induction n as [|n IH]; intros k l e; cbn [cose_entries].
  - split; [discriminate|]. intros (is & a & r & _ & H & _). lia.
  - split.
    + destruct (cose_entry k l) as [[k1 l1]|x|] eqn:E; cbn [bind]; [| |discriminate].
      * intros H. apply entry_iff in E. destruct E as (i & a & Hi & -> & _). apply IH in H. destruct H as (is & b & r & His & L & -> & He).
        exists (i :: is), (a ++ b), r. split; [constructor; assumption|]. split; [cbn; lia|]. rewrite <- app_assoc. auto.
      * intros H. injection H as <-. apply entry_err in E. exists [], [], l. split; [constructor|]. split; [cbn; lia|]. auto.
    + intros (is & a & r & His & L & -> & He). destruct His as [|i is a b Hi His].
      * cbn [app]. rewrite (proj2 (entry_err k r e) He). reflexivity.
      * rewrite <- app_assoc. rewrite (proj2 (entry_iff k (a ++ b ++ r) (apply_item i k) (b ++ r))) by eauto. cbn [bind]. apply IH.
        exists is, b, r. cbn in L. repeat split; auto. lia.
Qed.

(** ** Authenticator data *)
Definition auth_map (l : bytes) : res cose_key :=
  do? (len, l) <- match cbor_map l with Some (Some len, l') => Ok (len, l') | _ => Err (cbor_format (s2b "Refusing to read indefinite map")) end;
  if (256 <? len)%N then Err (cbor_format (s2b "Map is too long"))
  else cose_entries (N.to_nat len) (mkCose 0 0 [] []) l.
Lemma map_err_iff l e : auth_map l = Err e <-> map_refused l e.
Proof.
  unfold auth_map. split.
  - destruct (cbor_map l) as [[[n|] l1]|] eqn:E; cbn [bind].
    + apply map_iff in E. destruct E as (h & Hh & ->). destruct (N.ltb_spec 256 n) as [B|B]; intros H.
      * injection H as <-. eapply MR_long; eauto.
      * apply entries_err in H. destruct H as (is & a & r & His & L & -> & He). eapply MR_entry; eauto. lia.
    + intros H. injection H as <-. constructor. intros n h r El Hh. assert (X : cbor_map l = Some (Some n, r)) by (apply map_iff; eauto). congruence.
    + intros H. injection H as <-. constructor. intros n h r El Hh. assert (X : cbor_map l = Some (Some n, r)) by (apply map_iff; eauto). congruence.
  - intros H. destruct H as [l H|n h l Hh B|n h is a l e Hh B His L He].
    + destruct (cbor_map l) as [[[n|] l1]|] eqn:E; [|reflexivity..]. apply map_iff in E. destruct E as (h & Hh & E). exfalso. exact (H n h l1 E Hh).
    + rewrite (proj2 (map_iff (h ++ l) n l)) by eauto. cbn [bind]. replace (256 <? n)%N with true by lia. reflexivity.
    + rewrite (proj2 (map_iff (h ++ a ++ l) n (a ++ l))) by eauto. cbn [bind]. replace (256 <? n)%N with false by lia.
      apply entries_err. exists is, a, l. split; [exact His|]. split; [lia|auto].
Qed.
Lemma ends_early_iff raw text : ends_early raw text <-> cut_off raw text.
Proof.
  unfold ends_early, cut_off. cbv zeta. rewrite !in_app_iff, !in_map_iff. split.
  - intros [[(n & E & Hn)|[H|[(n & E & Hn)|[(n & E & Hn)|(n & E & Hn)]]]]|[-> (fr & len & id & -> & L1 & L2 & S)]];
      try (injection E as -> <-; apply in_seq in Hn).
    + left. split; [lia|reflexivity].
    + cbn [In] in H. destruct H as [H|[]]. injection H as <- <-. right; left. auto.
    + right; right; left. split; [lia|reflexivity].
    + do 3 right; left. split; [lia|reflexivity].
    + do 4 right; left. split; [lia|reflexivity].
    + do 5 right. split; [|reflexivity]. rewrite !app_length, L1, L2. rewrite skipn_app, skipn_all2 by lia. rewrite L1. cbn [Nat.sub skipn app].
      rewrite firstn_app, L2, Nat.sub_diag, firstn_O, app_nil_r, firstn_all2 by lia. unfold size in S. lia.
  - intros [[L ->]|[[L ->]|[[L ->]|[[L ->]|[[L ->]|[L ->]]]]]].
    + left. left. exists (length raw). split; [reflexivity|apply in_seq; lia].
    + left. right; left. rewrite L. left. reflexivity.
    + left. right; right; left. exists (length raw). split; [reflexivity|apply in_seq; lia].
    + left. do 3 right; left. exists (length raw). split; [reflexivity|apply in_seq; lia].
    + left. do 4 right. exists (length raw). split; [reflexivity|apply in_seq; lia].
    + right. split; [reflexivity|]. exists (firstn 53 raw), (firstn 2 (skipn 53 raw)), (skipn 2 (skipn 53 raw)).
      rewrite !firstn_skipn. split; [reflexivity|]. rewrite !firstn_length, !skipn_length. split; [lia|]. split; [lia|].
      unfold size. rewrite !skipn_length. lia.
Qed.
(** Data is cut off, or the fields in front of the key are there. *)
Lemma front_or_cut raw : (exists text, cut_off raw text) \/ exists f rest, in_front raw f rest.
Proof.
  unfold cut_off. cbv zeta.
  destruct (le_lt_dec 32 (length raw)) as [A1|A1]; [|left; eexists; left; split; [lia|reflexivity]].
  destruct (le_lt_dec 33 (length raw)) as [A2|A2]; [|left; eexists; right; left; split; [lia|reflexivity]].
  destruct (le_lt_dec 37 (length raw)) as [A3|A3]; [|left; eexists; do 2 right; left; split; [lia|reflexivity]].
  destruct (le_lt_dec 53 (length raw)) as [A4|A4]; [|left; eexists; do 3 right; left; split; [lia|reflexivity]].
  destruct (le_lt_dec 55 (length raw)) as [A5|A5]; [|left; eexists; do 4 right; left; split; [lia|reflexivity]].
  set (len := firstn 2 (skipn 53 raw)).
  destruct (le_lt_dec (55 + N.to_nat (magnitude len)) (length raw)) as [A6|A6]; [|left; eexists; do 5 right; split; [lia|reflexivity]].
  right. destruct (skipn 32 raw) as [|f l1] eqn:E1; [apply (f_equal (@length byte)) in E1; rewrite skipn_length in E1; cbn in E1; lia|].
  assert (Er : raw = firstn 32 raw ++ f :: l1) by (rewrite <- E1, firstn_skipn; reflexivity).
  assert (El : length l1 = length raw - 33) by (apply (f_equal (@length byte)) in E1; rewrite skipn_length in E1; cbn [length] in E1; lia).
  assert (Ln : len = firstn 2 (skipn 20 l1)).
  { unfold len. replace 53 with (32 + 21) by reflexivity. rewrite <- skipn_skipn', E1. reflexivity. }
  exists f, (skipn (N.to_nat (magnitude len)) (skipn 22 l1)), (firstn 32 raw), (firstn 4 l1), (firstn 16 (skipn 4 l1)), len,
    (firstn (N.to_nat (magnitude len)) (skipn 22 l1)).
  split.
  { rewrite Er at 1. f_equal. cbn [app]. f_equal. rewrite <- (firstn_skipn 4 l1) at 1. f_equal. rewrite <- (firstn_skipn 16 (skipn 4 l1)) at 1. f_equal.
    rewrite skipn_skipn'. change (4 + 16) with 20. rewrite Ln at 1. rewrite <- (firstn_skipn 2 (skipn 20 l1)) at 1. f_equal.
    rewrite skipn_skipn'. change (20 + 2) with 22. rewrite firstn_skipn. reflexivity. }
  rewrite Ln, !firstn_length, !skipn_length, <- Ln. unfold size. rewrite firstn_length, skipn_length.
  rewrite (Nat.min_l 32), (Nat.min_l 4), (Nat.min_l 16), (Nat.min_l 2) by lia. repeat split. lia.
Qed.
Lemma front_parse raw f rest e : in_front raw f rest ->
  auth_parse raw = Err e <-> ~ attested f /\ e = EParsingError \/ attested f /\ auth_map rest = Err e.
Proof.
  intros (rp & ct & gu & len & id & -> & L1 & L3 & L4 & L5 & M). unfold auth_parse.
  rewrite (proj2 (exact_iff 32 _ _ rp _)) by (split; [exact L1|reflexivity]). cbn [bind].
  rewrite (proj2 (exact_iff 1 _ _ [f] _)) by (split; reflexivity). cbn [bind index nth_error].
  rewrite (proj2 (exact_iff 4 _ _ ct _)) by (split; [exact L3|reflexivity]). cbn [bind].
  rewrite (proj2 (exact_iff 16 _ _ gu _)) by (split; [exact L4|reflexivity]). cbn [bind].
  rewrite (proj2 (exact_iff 2 _ _ len _)) by (split; [exact L5|reflexivity]). cbn [bind].
  rewrite magnitude_from_be in M. rewrite (proj2 (exact_iff _ _ _ id rest)) by (split; [rewrite M; unfold size; lia|reflexivity]). cbn [bind].
  pose proof (attested_iff f) as A. destruct (N.land (b2n f) 64 =? 64)%N.
  - assert (T : attested f) by (apply A; reflexivity).
    assert (G : forall x, @Err auth_data x = Err e <-> ~ attested f /\ e = EParsingError \/ attested f /\ @Err cose_key x = Err e).
    { intros x. split; [intros H; right; split; [exact T|congruence]|]. intros [[H _]|[_ H]]; [contradiction|congruence]. }
    unfold auth_map. destruct (match cbor_map rest with Some (Some _, _) => _ | _ => _ end) as [[n l]|x|]; cbn [bind].
    + destruct (256 <? n)%N; [cbn [bind]; apply G|]. destruct (cose_entries (N.to_nat n) _ l) as [k|x|]; cbn [bind ok_or]; [|apply G|].
      * split; [discriminate|]. intros [[H _]|[_ H]]; [contradiction|discriminate].
      * split; [discriminate|]. intros [[H _]|[_ H]]; [contradiction|discriminate].
    + apply G.
    + split; [discriminate|]. intros [[H _]|[_ H]]; [contradiction|discriminate].
  - cbn [bind ok_or]. split.
    + intros H. left. split; [intros N; apply A in N; discriminate|congruence].
    + intros [[_ ->]|[H _]]; [reflexivity|apply A in H; discriminate].
Qed.
(** Authenticator data is refused with the error of the first part that is wrong. *)
Theorem C129_authenticator_data : forall (raw : bytes) (e : error), auth_parse raw = Err e <-> auth_refused raw e.
Proof.
  intros raw e. unfold auth_refused. split.
  - intros H. destruct (front_or_cut raw) as [[text C]|(f & rest & Fr)].
    + left. exists text. split; [apply ends_early_iff, C|]. rewrite (C70_cut_off raw text C) in H. injection H as <-. reflexivity.
    + right. exists f, rest. split; [exact Fr|]. apply (front_parse raw f rest e Fr) in H. rewrite map_err_iff in H. exact H.
  - intros [(text & C & ->)|(f & rest & Fr & H)].
    + apply C70_cut_off, ends_early_iff, C.
    + apply (front_parse raw f rest e Fr). rewrite map_err_iff. exact H.
Qed.
Print Assumptions C129_authenticator_data.
Theorem C129_one_reason : forall raw : bytes,
  ((exists a, auth_layout raw a) \/ exists e, auth_refused raw e)
  /\ (forall a e, auth_layout raw a -> ~ auth_refused raw e)
  /\ (forall e e', auth_refused raw e -> auth_refused raw e' -> e = e').
Proof.
  intros raw. split; [|split].
  - destruct (auth_parse raw) as [a|e|] eqn:E.
    + left. exists a. apply auth_iff, E.
    + right. exists e. apply C129_authenticator_data, E.
    + exfalso. exact (auth_nopanic raw E).
  - intros a e Ha He. apply auth_iff in Ha. apply C129_authenticator_data in He. congruence.
  - intros e e' He He'. apply C129_authenticator_data in He, He'. congruence.
Qed.
Print Assumptions C129_one_reason.

(** ** FIDO attestations *)
Lemma readable_root_fun X t r r' : readable_root X t r -> readable_root X t r' -> r = r'.
Proof. intros (p & H1 & H2) (p' & H3 & H4). congruence. Qed.
Lemma extract_err X a c e : fido_extract X a c = Err e <-> ~ Forall (fido_readable X) (xc_extensions c) /\ e = EParsingError.
Proof.
  split; [intros H; destruct (fido_extract_err X a c e H); auto|]. intros [H ->].
  destruct (fido_extract X a c) as [v|x|] eqn:E.
  - apply fido_extract_ok in E. exfalso. apply H, E.
  - destruct (fido_extract_err X a c x E) as [-> _]. reflexivity.
  - exfalso. exact (fido_extract_nopanic X a c E).
Qed.
Theorem C129_fido : forall (X : x509) (default auth sig challenge : bytes) (alg : Z) (intermediate : bytes) (root : option bytes) (e : error),
  verify_auth_data X default auth sig challenge alg intermediate root = Err e <->
  fido_refused X (root_text default root) auth sig challenge alg intermediate e.
Proof.
  intros X default auth sig ch alg im root e. unfold verify_auth_data, fido_refused. fold (root_text default root). set (t := root_text default root).
  destruct (Z.eqb_spec alg (-7)) as [->|N7].
  2: { destruct (Z.eqb_spec alg (-8)) as [->|N8].
       - split; [intros H; injection H as <-; auto|]. intros [[_ ->]|[(H & _)|[(H & _)|[(H & _)|(H & _)]]]]; try congruence.
       - split; [intros H; injection H as <-; auto|]. intros [[H _]|[(_ & _ & ->)|[(H & _)|[(H & _)|(H & _)]]]]; congruence. }
  assert (D : forall P Q R : Prop, ((-7)%Z = (-8)%Z /\ e = EUnsupported
    \/ (-7)%Z <> (-8)%Z /\ (-7)%Z <> (-7)%Z /\ e = EInvalidFormat \/ (-7)%Z = (-7)%Z /\ P \/ (-7)%Z = (-7)%Z /\ Q \/ (-7)%Z = (-7)%Z /\ R) <-> P \/ Q \/ R).
  { intros P Q R. split; [intros [[H _]|[(_ & H & _)|[[_ H]|[[_ H]|[_ H]]]]]; auto; [discriminate|congruence]|]. intros [H|[H|H]]; auto 10. }
  rewrite D. clear D.
  destruct (x_pem X t) as [pem|] eqn:Ep; cbn [ok_or bind].
  2: { split; [intros H; injection H as <-; left; split; [left; intros rc (p & H & _); congruence|reflexivity]|].
       intros [[_ ->]|[((rc & i & (p & H & _) & _) & _)|(i & _ & (p & r & H & _) & _)]]; [reflexivity|congruence|congruence]. }
  destruct (x_pem_cert X pem) as [rc|] eqn:Er; cbn [ok_or bind].
  2: { split; [intros H; injection H as <-; left; split; [left; intros rc (p & H & H'); congruence|reflexivity]|].
       intros [[_ ->]|[((rc & i & (p & H & H') & _) & _)|(i & _ & (p & r & H & H' & _) & _)]]; [reflexivity|congruence|congruence]. }
  assert (Rt : readable_root X t rc) by (exists pem; auto).
  destruct (x_cert X im) as [inter|] eqn:Ei; cbn [ok_or bind].
  2: { split; [intros H; injection H as <-; left; auto|].
       intros [[_ ->]|[((r & i & _ & H & _) & _)|(i & H & _)]]; [reflexivity|congruence|congruence]. }
  assert (N1 : ~ (((forall rc0, ~ readable_root X t rc0) \/ Some inter = None) /\ e = EParsingError)).
  { intros [[H|H] _]; [exact (H rc Rt)|discriminate]. }
  assert (Sg : root_signed X t inter <-> x_signed X inter (xc_spki rc) = true).
  { unfold root_signed. split; [intros (p & r & H1 & H2 & H3); congruence|]. intros H. exists pem, rc. auto. }
  destruct (x_signed X inter (xc_spki rc)) eqn:Es; cbn [negb].
  2: { split; [intros H; injection H as <-; right; left; split; [exists rc, inter; auto|reflexivity]|].
       intros [H|[[_ ->]|(i & Hi & H & _)]]; [contradiction|reflexivity|]. injection Hi as <-. apply Sg in H. discriminate. }
  destruct (x_p256_asn1 X _ _ sig) eqn:Ev; cbn [negb].
  2: { split; [intros H; injection H as <-; right; left; split; [exists rc, inter; auto|reflexivity]|].
       intros [H|[[_ ->]|(i & Hi & _ & H & _)]]; [contradiction|reflexivity|]. injection Hi as <-. congruence. }
  assert (N2 : ~ ((exists rc0 inter0, readable_root X t rc0 /\ Some inter = Some inter0
    /\ (x_signed X inter0 (xc_spki rc0) = false \/ x_p256_asn1 X (sp_key (xc_spki inter0)) (auth ++ ch) sig = false)) /\ e = EInvalidSignature)).
  { intros [(r & i & H1 & H2 & H3) _]. injection H2 as <-. rewrite (readable_root_fun _ _ _ _ H1 Rt) in H3. destruct H3; congruence. }
  split.
  - intros H. right; right. exists inter. split; [reflexivity|]. split; [apply Sg; reflexivity|]. split; [exact Ev|].
    destruct (auth_parse auth) as [a|x|] eqn:Ea; cbn [bind] in H; [| |discriminate].
    + right. apply extract_err in H. split; [exists a; apply auth_iff, Ea|exact H].
    + left. injection H as <-. apply C129_authenticator_data, Ea.
  - intros [H|[H|(i & Hi & _ & _ & [H|((a & Ha) & H)])]]; [contradiction|contradiction| |]; injection Hi as <-.
    + apply C129_authenticator_data in H. rewrite H. reflexivity.
    + apply auth_iff in Ha. rewrite Ha. cbn [bind]. apply extract_err, H.
Qed.
Print Assumptions C129_fido.
(** Complaints about the contents of the data are only made about data that is properly signed. *)
Theorem C129_contents_are_signed : forall (X : x509) (default auth sig challenge : bytes) (alg : Z) (intermediate : bytes) (root : option bytes) (x : fido_error),
  verify_auth_data X default auth sig challenge alg intermediate root = Err (EFidoError x) ->
  exists inter, x_cert X intermediate = Some inter /\ root_signed X (root_text default root) inter
    /\ x_p256_asn1 X (sp_key (xc_spki inter)) (auth ++ challenge) sig = true /\ auth_refused auth (EFidoError x).
Proof.
  intros X default auth sig ch alg im root x H. apply C129_fido in H.
  destruct H as [[_ H]|[(_ & _ & H)|[(_ & _ & H)|[(_ & _ & H)|(_ & inter & H1 & H2 & H3 & [H4|(_ & _ & H4)])]]]]; try discriminate.
  exists inter. auto.
Qed.
Print Assumptions C129_contents_are_signed.

(** ** YubiKey attestations *)
Lemma no_curve_iff p : no_curve_key p <-> exists e, convert_pki p = Err e.
Proof.
  unfold no_curve_key. split.
  - intros H. destruct (convert_pki p) as [k|e|] eqn:E; [|eauto|exfalso; exact (convert_nopanic p E)].
    exfalso. apply convert_ok in E. destruct E as (oid & [E1 E2] & Hk). specialize (H oid E1 E2). apply ecdsa_key_ok in Hk.
    rewrite (ecdsa_key_other _ _ H) in Hk. discriminate.
  - intros [e E] oid E1 E2. destruct (ecdsa_key_cases oid (sp_key p)) as [[k Hk]|Ho]; [|exact Ho].
    apply ecdsa_key_ok in Hk. assert (X : convert_pki p = Ok k) by (apply convert_ok; exists oid; split; [split|]; assumption). congruence.
Qed.
Lemma first_differs {A} (P : A -> Prop) (l1 l1' l2 l2' : list A) e e' : l1 ++ e :: l2 = l1' ++ e' :: l2' ->
  Forall P l1 -> Forall P l1' -> ~ P e -> ~ P e' -> e = e'.
Proof.
  revert l1'. induction l1 as [|x l1 IH]; intros [|y l1'] H F F' N N'; cbn [app] in H; injection H as H1 H2.
  - exact H1.
  - subst y. inversion F'. contradiction.
  - subst x. inversion F. contradiction.
  - inversion F; inversion F'; eauto.
Qed.
Lemma piv_err X k c e : piv_extract X k c = Err e <-> piv_unreadable X (xc_extensions c) /\ e = EParsingError.
Proof.
  unfold piv_extract, piv_unreadable. set (l := xc_extensions c). pose proof (piv_loop X l (mkFound None None None)) as H.
  destruct (piv_extensions X l _) as [r|x|]; cbn [bind].
  - assert (R : piv_from X (mkFound None None None) l r) by (apply H; reflexivity). unfold piv_from in R. cbn [pf_firmware pf_serial pf_policies] in R.
    rewrite !from_none in R. destruct R as (F1 & F2 & R1 & R2 & R3).
    assert (N : ~ exists l1 e0 l2, l = l1 ++ e0 :: l2 /\ Forall (serial_readable X) l1 /\ Forall policy_readable l1 /\ ~ serial_readable X e0).
    { intros (l1 & e0 & l2 & El & _ & _ & Ne). rewrite El in F1. apply Forall_app in F1. destruct F1 as [_ F1]. inversion F1. contradiction. }
    assert (S : forall B (Q : bytes * bytes -> B -> Prop) v, last_where Q l (Some v) -> ~ forall e0 v0, In e0 l -> ~ Q e0 v0).
    { intros B Q v (l1 & e0 & l2 & El & Hq & _) Hn. apply (Hn e0 v); [rewrite El; apply in_or_app; right; left; reflexivity|exact Hq]. }
    destruct r as [[fw|] [n|] [[pi to]|]]; cbn [pf_firmware pf_serial pf_policies] in *.
    1: { split; [discriminate|]. intros [[Hu|(_ & _ & [Hu|[Hu|Hu]])] _]; [contradiction|exfalso; exact (S _ _ _ R1 Hu)|exfalso; exact (S _ _ _ R2 Hu)|exfalso; exact (S _ _ _ R3 Hu)]. }
    all: split; [intros E; injection E as <-; split; [right; split; [exact F1|]; split; [exact F2|]; auto|reflexivity]|intros [_ ->]; reflexivity].
  - destruct H as [-> H]. split; [intros E; injection E as <-; auto|]. intros [_ ->]. reflexivity.
  - split; [discriminate|]. intros [[(l1 & e1 & l2 & E1 & F1 & G1 & N1)|(F1 & F2 & _)] _]; destruct H as (l1' & e2 & l2' & E2 & F1' & G1' & N2).
    + assert (X1 : e1 = e2).
      { apply (first_differs (fun e => serial_readable X e /\ policy_readable e) l1 l1' l2 l2'); [congruence|apply Forall_and; assumption|apply Forall_and; assumption|tauto|tauto]. }
      subst e2. unfold serial_readable, policy_readable in *. exfalso. apply N1. intros Es _. apply N2. intros Ep. rewrite Es in Ep. discriminate Ep.
    + rewrite E2 in F2. apply Forall_app in F2. destruct F2 as [_ F2]. inversion F2. contradiction.
Qed.
Theorem C129_yubikey : forall (X : x509) (default client intermediate : bytes) (root : option bytes) (e : error),
  verify_chain X default client intermediate root = Err e <-> chain_refused X (root_text default root) client intermediate e.
Proof.
  intros X default cl im root e. unfold verify_chain, chain_refused. fold (root_text default root). set (t := root_text default root).
  destruct (x_pem X t) as [pem|] eqn:Ep; cbn [unwrap bind]; [|split; [discriminate|intros (rc & (p & H & _) & _); congruence]].
  destruct (x_pem_cert X pem) as [rc|] eqn:Er; cbn [unwrap bind]; [|split; [discriminate|intros (rc & (p & H & H') & _); congruence]].
  assert (Rt : readable_root X t rc) by (exists pem; auto).
  assert (D : forall P : xcert -> Prop, (exists rc', readable_root X t rc' /\ P rc') <-> P rc).
  { intros P. split; [intros (r & H1 & H2); rewrite <- (readable_root_fun _ _ _ _ H1 Rt); exact H2|eauto]. }
  rewrite D. clear D.
  destruct (x_cert X im) as [inter|] eqn:Ei; cbn [ok_or bind].
  2: { split; [intros H; injection H as <-; auto|]. intros [[_ ->]|(i & c & H & _)]; [reflexivity|discriminate]. }
  unfold x509_cert_key. destruct (x_cert X cl) as [c|] eqn:Ec; cbn [ok_or bind].
  2: { split; [intros H; injection H as <-; auto|]. intros [[_ ->]|(i & c & _ & H & _)]; [reflexivity|discriminate]. }
  assert (D : forall P : xcert -> xcert -> Prop, ((Some inter = None \/ Some c = None) /\ e = EParsingError
    \/ (exists i c', Some inter = Some i /\ Some c = Some c' /\ P i c')) <-> P inter c).
  { intros P. split; [|intros H; right; exists inter, c; auto]. intros [[[H|H] _]|(i & c' & H1 & H2 & H)]; [discriminate|discriminate|]. congruence. }
  rewrite D. clear D.
  destruct (x_signed X inter (xc_spki rc)) eqn:E1; cbn [negb].
  2: { split; [intros H; injection H as <-; auto|]. intros [[_ ->]|[H _]]; [reflexivity|discriminate]. }
  destruct (x_signed X c (xc_spki inter)) eqn:E2; cbn [negb].
  2: { split; [intros H; injection H as <-; auto|]. intros [[_ ->]|(_ & H & _)]; [reflexivity|discriminate]. }
  pose proof (no_curve_iff (xc_spki c)) as Nc.
  destruct (convert_pki (xc_spki c)) as [k|x|] eqn:Ek; cbn [bind]; [| |exfalso; exact (convert_nopanic _ Ek)].
  - assert (N : ~ no_curve_key (xc_spki c)) by (intros H; apply Nc in H; destruct H as [y H]; discriminate).
    rewrite piv_err. split.
    + intros [H ->]. auto 8.
    + intros [[[H|H] _]|(_ & _ & [H|[H _]] & ->)]; [discriminate|discriminate|contradiction|auto].
  - assert (N : no_curve_key (xc_spki c)) by (apply Nc; eauto). split.
    + intros H. injection H as <-. auto 8.
    + intros [[[H|H] _]|(_ & _ & _ & ->)]; [discriminate|discriminate|reflexivity].
Qed.
Print Assumptions C129_yubikey.
(** A parsing error does not tell whether the input was signed: the same error is given for a
    certificate that is signed and lacks an extension, and for one that cannot be read. *)
Theorem C129_parsing_errors_tell_refuted : exists (X : x509) (root intermediate client client' : bytes) (inter cl : xcert),
  x_cert X intermediate = Some inter /\ x_cert X client = Some cl /\ root_signed X root inter /\ x_signed X cl (xc_spki inter) = true
  /\ verify_chain X root client intermediate None = Err EParsingError
  /\ x_cert X client' = None /\ verify_chain X root client' intermediate None = Err EParsingError.
Proof.
  exists (mkX509 (x_pem ex_x) (x_pem_cert ex_x) (fun d => if bytes_eqb d [x03] then Some (mkXcert [x03] (ex_spki [x03]) []) else x_cert ex_x d) (x_csr ex_x) (x_signed ex_x)
    (x_sequence ex_x) (x_octets ex_x) (x_bits ex_x) (x_integer ex_x) (x_p256_asn1 ex_x)), (s2b "root"), [x02], [x03], [x09].
  do 2 eexists. split; [reflexivity|]. split; [reflexivity|].
  split; [exists [x01], ex_root; repeat split; reflexivity|]. split; [reflexivity|].
  split; [vm_compute; reflexivity|]. split; [reflexivity|vm_compute; reflexivity].
Qed.
Print Assumptions C129_parsing_errors_tell_refuted.

(** The data of the crate's own test, with single bytes changed: the flags, the head of the map,
    the label of its first entry, the type of the algorithm, the coordinate, and an unknown label. *)
Definition changed (n : nat) (b : byte) : bytes := firstn n ex_auth ++ [b] ++ skipn (S n) ex_auth.
Example C129_case_data :
  auth_refused (changed 32 x05) EParsingError
  /\ auth_refused (changed 183 xbf) (cbor_error (s2b "Refusing to read indefinite map"))
  /\ auth_refused (changed 184 x60) EParsingError
  /\ auth_refused (changed 185 x60) (cbor_error (s2b "Could not read integer for key 1 (key_type): Could not parse the data provided"))
  /\ auth_refused (changed 187 x60) (cbor_error (s2b "Could not read integer for key 3 (algorithm)"))
  /\ auth_refused (changed 189 x60) (cbor_error (s2b "Could not read integer for key -1 (parameters)"))
  /\ auth_refused (changed 192 x21) (cbor_error (s2b "Could not bytes for key -2|-3 (key)"))
  /\ auth_refused (changed 184 x02) (cbor_error (s2b "We got something else 2 and threw error "))
  /\ auth_refused (firstn 54 ex_auth) (cbor_error (s2b "Could not read credential length"))
  /\ auth_refused (firstn 183 ex_auth ++ [xb9; x01; x01]) (cbor_error (s2b "Map is too long")).
Proof. repeat split; apply C129_authenticator_data; vm_compute; reflexivity. Qed.
Example C129_case_fido :
  fido_refused ex_x (s2b "root") ex_auth (ex_auth ++ [x09; xff]) [x08] (-7) [x02] EInvalidSignature
  /\ fido_refused ex_x (s2b "root") ex_auth (ex_auth ++ [x09; xff]) [x09] (-7) [x09] EParsingError
  /\ fido_refused ex_x (s2b "root") (changed 32 x05) (changed 32 x05 ++ [x09; xff]) [x09] (-7) [x02] EParsingError.
Proof. repeat split; apply (C129_fido ex_x (s2b "root") _ _ _ _ _ None); vm_compute; reflexivity. Qed.
Example C129_case_contents : exists x, verify_auth_data ex_x (s2b "root") [x01] [x01; xff] [] (-7) [x02] None = Err (EFidoError x).
Proof. eexists. vm_compute. reflexivity. Qed.
Example C129_case_chain :
  chain_refused ex_x (s2b "root") [x02] [x02] EInvalidSignature /\ chain_refused ex_x (s2b "root") [x03] [x09] EParsingError
  /\ ~ (exists e, chain_refused ex_x (s2b "root") [x03] [x02] e) /\ ~ (exists e, chain_refused ex_x (s2b "other") [x03] [x02] e).
Proof.
  split; [apply (C129_yubikey ex_x (s2b "root") _ _ None); vm_compute; reflexivity|].
  split; [apply (C129_yubikey ex_x (s2b "root") _ _ None); vm_compute; reflexivity|].
  split; intros [e H]; [apply (C129_yubikey ex_x (s2b "root") _ _ None) in H|apply (C129_yubikey ex_x (s2b "other") _ _ None) in H];
    vm_compute in H; discriminate.
Qed.

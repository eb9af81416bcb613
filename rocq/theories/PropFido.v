(** Properties C70, C71: authenticator data. *)
From Coq Require Import Lia.
From Verif Require Import Base BaseFacts SpecWire WireFacts SpecKeys KeyType KeyTypeFacts PubKeyType PubKey AllowedSigner SpecSigner
  FileFacts Writer Fido SpecFido FidoFacts PropPubKey.

(** The data of tests/fido-lite.rs 6-18. *)
Definition ex_auth : bytes :=
  [x9f; x86; xd0; x81; x88; x4c; x7d; x65; x9a; x2f; xea; xa0; xc5; x5a; xd0; x15;
   xa3; xbf; x4f; x1b; x2b; x0b; x82; x2c; xd1; x5d; x6c; x15; xb0; xf0; x0a; x08;
   x45; x00; x00; x00; x04; xd8; x52; x2d; x9f; x57; x5b; x48; x66; x88; xa9; xba;
   x99; xfa; x02; xf3; x5b; x00; x80; xbb; xaf; xf6; xcb; xf6; xa8; xb4; x15; xbd;
   xda; x1e; x8a; x43; x72; xd2; x70; xdb; x36; x64; xd9; xc6; x0b; xf2; x87; xb3;
   x10; x61; x36; x7a; x25; x05; xb3; xef; x3c; xfd; xef; xa5; xb9; x6e; x10; x0f;
   x40; x6a; xeb; x42; xa9; xc2; x90; x1a; x0d; x3e; x13; x5c; xec; x43; x0c; xf4;
   x5f; x55; x4c; x06; x9e; xfa; xe0; x24; x10; x76; x7b; x75; x05; xd0; xaa; x0c;
   xb8; x99; x7f; x83; x22; x58; x57; xbb; x60; x58; x3f; x0b; xb1; x84; x8d; x6c;
   xbc; x2b; x62; x4a; x77; x38; x98; x2f; xb9; x96; x5b; x4b; x18; xd3; xc8; xba;
   xca; xd4; x48; x01; xa3; x4d; x20; x7b; x8f; x40; xa7; x4d; x68; xf8; x42; x4a;
   x08; xad; x55; xe3; xb6; x6e; x69; xa4; x01; x01; x03; x27; x20; x06; x21; x58;
   x20; xa9; x72; x40; x74; xc7; x39; x10; x21; xa4; xac; x64; x55; x34; x69; x6b;
   xb8; x85; x39; xa7; x7d; xf5; x77; x0f; xd9; x45; xdf; x1a; xa0; x6c; xfa; xd0;
   xfe].
Definition ex_auth_key : cose_key := mkCose 1 (-8) (skipn 193 ex_auth) [((-1)%Z, s2b "6")].
Definition ex_auth_data : auth_data :=
  mkAuth (firstn 32 ex_auth) x45 4 (firstn 16 (skipn 37 ex_auth)) (firstn 128 (skipn 55 ex_auth)) ex_auth_key.

(** ** C70 *)
(** The accepted data and the fields found in it, exactly. *)
Theorem C70_layout : forall (raw : bytes) (a : auth_data), auth_parse raw = Ok a <-> auth_layout raw a.
Proof. exact auth_iff. Qed.
Print Assumptions C70_layout.
Example C70_case : auth_parse ex_auth = Ok ex_auth_data /\ auth_layout ex_auth ex_auth_data
  /\ auth_parse (ex_auth ++ [x00]) = Ok ex_auth_data /\ ad_sign_count ex_auth_data = 4%N.
Proof.
  assert (E : auth_parse ex_auth = Ok ex_auth_data) by (vm_compute; reflexivity).
  split; [exact E|]. split; [apply C70_layout, E|]. split; vm_compute; reflexivity.
Qed.
Theorem C70_never_panics : forall raw : bytes, auth_parse raw <> Panic.
Proof. exact auth_nopanic. Qed.
Print Assumptions C70_never_panics.
(** Bytes behind the map are ignored. *)
Theorem C70_trailing_ignored : forall (raw extra : bytes) (a : auth_data), auth_parse raw = Ok a -> auth_parse (raw ++ extra) = Ok a.
Proof.
  intros raw extra a H. apply auth_iff in H. apply auth_iff. destruct H as (ct & cl & is & m & e & -> & H).
  exists ct, cl, is, m, (e ++ extra). split; [rewrite <- !app_assoc; reflexivity|exact H].
Qed.
Print Assumptions C70_trailing_ignored.

Lemma exact_short n l text : length l < n -> read_exact n l text = Err (cbor_format text).
Proof. intros H. unfold read_exact. rewrite (proj2 (take_none n l)) by exact H. reflexivity. Qed.
Lemma exact_take n l text : n <= length l -> read_exact n l text = Ok (firstn n l, skipn n l).
Proof. intros H. apply exact_iff. rewrite firstn_skipn, firstn_length. split; [lia|reflexivity]. Qed.
(** What is said about data that ends early: the first part that is cut off. *)
Definition cut_off (raw : bytes) (text : bytes) : Prop :=
  let n := length raw in
  let id := 55 + N.to_nat (magnitude (firstn 2 (skipn 53 raw))) in
  n < 32 /\ text = s2b "Could not read RPID"
  \/ n = 32 /\ text = s2b "Could not read flags"
  \/ 33 <= n < 37 /\ text = s2b "Could not read sign count"
  \/ 37 <= n < 53 /\ text = s2b "Could not read AAGUID"
  \/ 53 <= n < 55 /\ text = s2b "Could not read credential length"
  \/ 55 <= n < id /\ text = s2b "Could not read credential ID".
Theorem C70_cut_off : forall (raw text : bytes), cut_off raw text -> auth_parse raw = Err (EFidoError (FCborFormat text)).
Proof.
  intros raw text H. unfold cut_off in H. cbv zeta in H. change (EFidoError (FCborFormat text)) with (cbor_format text). unfold auth_parse.
  destruct H as [[L ->]|H]; [rewrite exact_short by lia; reflexivity|].
  rewrite (exact_take 32) by lia. cbn [bind].
  assert (S1 : length (skipn 32 raw) = length raw - 32) by apply skipn_length.
  destruct H as [[L ->]|H]; [rewrite exact_short by lia; reflexivity|].
  rewrite (exact_take 1) by lia. cbn [bind]. destruct (firstn 1 (skipn 32 raw)) as [|f fl] eqn:Ef.
  { apply (f_equal (@length byte)) in Ef. rewrite firstn_length, S1 in Ef. cbn [length] in Ef. lia. }
  cbn [index nth_error bind]. rewrite !skipn_skipn'. change (32 + 1) with 33.
  pose proof (skipn_length 33 raw) as S2.
  destruct H as [[L ->]|H]; [rewrite exact_short by lia; reflexivity|].
  rewrite (exact_take 4) by lia. cbn [bind]. rewrite !skipn_skipn'. change (33 + 4) with 37. pose proof (skipn_length 37 raw) as S3.
  destruct H as [[L ->]|H]; [rewrite exact_short by lia; reflexivity|].
  rewrite (exact_take 16) by lia. cbn [bind]. rewrite !skipn_skipn'. change (37 + 16) with 53. pose proof (skipn_length 53 raw) as S4.
  destruct H as [[L ->]|H]; [rewrite exact_short by lia; reflexivity|].
  rewrite (exact_take 2) by lia. cbn [bind]. rewrite !skipn_skipn'. change (53 + 2) with 55. pose proof (skipn_length 55 raw) as S5.
  destruct H as [L ->]. rewrite magnitude_from_be in L. rewrite exact_short by lia. reflexivity.
Qed.
Print Assumptions C70_cut_off.
Example C70_cut_off_case : cut_off (firstn 182 ex_auth) (s2b "Could not read credential ID").
Proof. do 5 right. split; [vm_compute; lia|reflexivity]. Qed.
(** Complete data without the attested-data flag: every assertion a device signs is one. *)
Theorem C70_not_attested : forall (raw : bytes) (f : byte),
  nth_error raw 32 = Some f -> ~ attested f -> (forall text, ~ cut_off raw text) -> auth_parse raw = Err EParsingError.
Proof.
  intros raw f Hf Na Nc.
  assert (L : 55 + N.to_nat (magnitude (firstn 2 (skipn 53 raw))) <= length raw).
  { destruct (le_lt_dec (55 + N.to_nat (magnitude (firstn 2 (skipn 53 raw)))) (length raw)) as [L|L]; [exact L|exfalso].
    destruct (le_lt_dec 55 (length raw)); [apply (Nc (s2b "Could not read credential ID")); unfold cut_off; do 5 right; split; [lia|reflexivity]|].
    destruct (le_lt_dec 53 (length raw)); [apply (Nc (s2b "Could not read credential length")); unfold cut_off; do 4 right; left; split; [lia|reflexivity]|].
    destruct (le_lt_dec 37 (length raw)); [apply (Nc (s2b "Could not read AAGUID")); unfold cut_off; do 3 right; left; split; [lia|reflexivity]|].
    destruct (le_lt_dec 33 (length raw)); [apply (Nc (s2b "Could not read sign count")); unfold cut_off; do 2 right; left; split; [lia|reflexivity]|].
    assert (X : nth_error raw 32 <> None) by congruence. apply nth_error_Some in X. lia. }
  unfold auth_parse. rewrite (exact_take 32) by lia. cbn [bind].
  pose proof (skipn_length 32 raw). rewrite (exact_take 1) by lia. cbn [bind].
  assert (E : firstn 1 (skipn 32 raw) = [f]).
  { destruct (nth_error_split raw 32 Hf) as (l1 & l2 & E & L1). rewrite E. rewrite skipn_app, L1. rewrite skipn_all2 by lia. reflexivity. }
  rewrite E. cbn [index nth_error bind]. rewrite !skipn_skipn'. change (32 + 1) with 33. pose proof (skipn_length 33 raw).
  rewrite (exact_take 4) by lia. cbn [bind]. rewrite !skipn_skipn'. change (33 + 4) with 37. pose proof (skipn_length 37 raw).
  rewrite (exact_take 16) by lia. cbn [bind]. rewrite !skipn_skipn'. change (37 + 16) with 53. pose proof (skipn_length 53 raw).
  rewrite (exact_take 2) by lia. cbn [bind]. rewrite !skipn_skipn'. change (53 + 2) with 55. pose proof (skipn_length 55 raw).
  rewrite magnitude_from_be in L. rewrite exact_take by lia. cbn [bind].
  destruct (_ =? 64)%N eqn:A; [exfalso; apply Na, attested_iff, A|reflexivity].
Qed.
Print Assumptions C70_not_attested.
Example C70_not_attested_case : auth_parse (repeat x00 55) = Err EParsingError.
Proof. vm_compute. reflexivity. Qed.
(** The two flags of the user. *)
Theorem C70_user_flags : forall a : auth_data,
  user_presence a = N.testbit (Byte.to_N (ad_flags a)) 0 /\ user_verification a = N.testbit (Byte.to_N (ad_flags a)) 2.
Proof. intros [h f c g i k]. unfold user_presence, user_verification, b2n. cbn [ad_flags]. clear. destruct f; vm_compute; split; reflexivity. Qed.
Print Assumptions C70_user_flags.
Example C70_user_flags_case : user_presence ex_auth_data = true /\ user_verification ex_auth_data = true
  /\ user_verification (mkAuth [] x41 0 [] [] ex_auth_key) = false.
Proof. repeat split. Qed.

(** ** C71 *)
Definition sk_ed25519 (t : key_type) : Prop := kt_name t = s2b "sk-ssh-ed25519@openssh.com" /\ known t.
Definition sk_ecdsa (t : key_type) : Prop := kt_name t = s2b "sk-ecdsa-sha2-nistp256@openssh.com" /\ known t.
(** The key of parsed data, by the algorithm of the COSE map; [x] is the last coordinate. *)
Theorem C71_ssh_key : forall (app : bytes) (a : auth_data) (is : list item),
  key_of is (ad_cose_key a) ->
  let x := or_else (last_some coord_of is) [] in
  match last_some alg_of is with
  | Some (-8)%Z => exists t, sk_ed25519 t /\ auth_ssh_key a app = Ok (mkPubKey t (PkEd25519 x (Some app)) None)
  | Some (-7)%Z => exists t, sk_ecdsa t /\ auth_ssh_key a app = Ok (mkPubKey t (PkEcdsa (mkCurve Nistp256 (s2b "nistp256")) x (Some app)) None)
  | _ => auth_ssh_key a app = Err EParsingError
  end.
Proof.
  intros app a is (_ & Ha & Hk & _). cbv zeta. rewrite <- Hk.
  assert (T7 : exists t, sk_ecdsa t /\ kt_from_name (s2b "sk-ecdsa-sha2-nistp256@openssh.com") = Ok t).
  { eexists. split; [|vm_compute; reflexivity]. split; [reflexivity|]. vm_compute. auto 20. }
  assert (T8 : exists t, sk_ed25519 t /\ kt_from_name (s2b "sk-ssh-ed25519@openssh.com") = Ok t).
  { eexists. split; [|vm_compute; reflexivity]. split; [reflexivity|]. vm_compute. auto 20. }
  destruct T7 as (t7 & K7 & T7), T8 as (t8 & K8 & T8).
  assert (G : forall z, ck_algorithm (ad_cose_key a) = z -> z <> (-7)%Z -> z <> (-8)%Z -> auth_ssh_key a app = Err EParsingError).
  { intros z E N7 N8. unfold auth_ssh_key. rewrite E. replace (z =? -7)%Z with false by lia. replace (z =? -8)%Z with false by lia. reflexivity. }
  destruct (last_some alg_of is) as [v|]; cbn [or_else] in Ha; [|apply (G _ Ha); lia].
  assert (D : v = (-7)%Z \/ v = (-8)%Z \/ v <> (-7)%Z /\ v <> (-8)%Z) by lia. destruct D as [D|[D|[D7 D8]]].
  - rewrite D in *. clear D. cbv beta iota.
exists t7. split; [exact K7|]. unfold auth_ssh_key. rewrite Ha. change (-7 =? -7)%Z with true. cbv iota. rewrite T7. reflexivity.
  - rewrite D in *. clear D. cbv beta iota. exists t8. split; [exact K8|]. unfold auth_ssh_key. rewrite Ha. change (-8 =? -7)%Z with false. change (-8 =? -8)%Z with true. cbv iota. rewrite T8. reflexivity.
  - specialize (G _ Ha D7 D8). destruct v as [|p|p]; try exact G. do 5 (try (destruct p as [p|p|]; try exact G)); congruence.
Qed.
Print Assumptions C71_ssh_key.
Definition sk_ed : key_type := mkKeyType (s2b "sk-ssh-ed25519@openssh.com") (s2b "ED25519-SK") false true KEd25519 (s2b "sk-ssh-ed25519@openssh.com").
Example C71_case : auth_ssh_key ex_auth_data (s2b "ssh:") = Ok (mkPubKey sk_ed (PkEd25519 (skipn 193 ex_auth) (Some (s2b "ssh:"))) None)
  /\ key_of [Kty 1; Alg (-8); Crv 6; Coord (-2) (skipn 193 ex_auth)] ex_auth_key.
Proof.
  split; [vm_compute; reflexivity|]. repeat split; try (vm_compute; reflexivity). exists (s2b "6"). split; [|reflexivity].
  apply display_z_decimal.
Qed.

(** An ES256 credential whose coordinates have 32 bytes never gives the key OpenSSH has for
    it: that one holds 04, x and y. *)
Definition es256_blob (x y app : bytes) : bytes :=
  field (s2b "sk-ecdsa-sha2-nistp256@openssh.com") ++ field (s2b "nistp256") ++ field (x04 :: x ++ y) ++ field app.
Theorem C71_es256_key_is_not_the_point : forall (app x y : bytes) (a : auth_data) (is : list item) (k : pubkey) (e : bytes),
  key_of is (ad_cose_key a) -> last_some alg_of is = Some (-7)%Z ->
  (forall l s, In (Coord l s) is -> length s = 32) -> length x = 32 -> length y = 32 ->
  auth_ssh_key a app = Ok k -> pk_encode k = Ok e -> e <> es256_blob x y app.
Proof.
  intros app x y a is k e Hk Ha Hc Lx Ly Ek Ee H. pose proof (C71_ssh_key app a is Hk) as T. cbv zeta in T. rewrite Ha in T. cbv beta iota in T.
  destruct T as (t & [Ht1 Ht2] & E). rewrite E in Ek. injection Ek as <-.
  set (c := or_else _ _) in *. assert (C : length c = 32 \/ length c = 0).
  { subst c. clear -Hc. induction is as [|i is IH]; [right; reflexivity|]. cbn [last_some].
    specialize (IH (fun l s H => Hc l s (or_intror H))). destruct (last_some coord_of is); [exact IH|]. destruct i; cbn; auto. left. exact (Hc _ _ (or_introl eq_refl)). }
  clearbody c. assert (W : forall v w, length (write_bytes v w) = length w + 4 + length v).
  { intros v w. unfold write_bytes. rewrite !app_length, to_be_length. lia. }
  assert (S : kt_is_sk t = true /\ kt_plain t = s2b "sk-ecdsa-sha2-nistp256@openssh.com").
  { revert Ht2 Ht1. apply (known_forall (fun t => kt_name t = s2b "sk-ecdsa-sha2-nistp256@openssh.com" -> kt_is_sk t = true /\ kt_plain t = s2b "sk-ecdsa-sha2-nistp256@openssh.com") ). apply Forall_forall. intros k Hi X. vm_compute in Hi. repeat (destruct Hi as [Hi|Hi]; [subst k; vm_compute in X; try discriminate X; split; reflexivity|]). destruct Hi. }
  destruct S as [S1 S2]. unfold pk_encode in Ee. cbn [pk_kind pk_type c_identifier unwrap bind] in Ee. rewrite S1, S2 in Ee. injection Ee as Ee.
  apply (f_equal (@length byte)) in H. rewrite <- Ee in H. unfold es256_blob, field, write_string in H.
  rewrite !W in H. rewrite !app_length in H. cbn [length] in H. rewrite app_length in H. unfold be32 in H. rewrite ?to_be_length in H. cbn in H. lia.
Qed.
Print Assumptions C71_es256_key_is_not_the_point.
(** So the claim that the key of a credential is its public key fails. *)
Definition ex_es256 : auth_data := mkAuth [] x41 0 [] [] (mkCose 2 (-7) (repeat x02 32) [((-1)%Z, s2b "1")]).
Theorem C71_es256_key_refuted : exists (a : auth_data) (x y app : bytes) (k : pubkey) (e : bytes),
  key_of [Kty 2; Alg (-7); Crv 1; Coord (-2) x; Coord (-3) y] (ad_cose_key a) /\ length x = 32 /\ length y = 32
  /\ auth_ssh_key a app = Ok k /\ pk_encode k = Ok e /\ e <> es256_blob x y app.
Proof.
  exists ex_es256, (repeat x01 32), (repeat x02 32), (s2b "ssh:"). do 2 eexists.
  split. { repeat split. exists (s2b "1"). split; [apply display_z_decimal|reflexivity]. }
  split; [reflexivity|]. split; [reflexivity|]. split; [vm_compute; reflexivity|]. split; [vm_compute; reflexivity|]. vm_compute. discriminate.
Qed.
Print Assumptions C71_es256_key_refuted.

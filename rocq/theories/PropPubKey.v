(** Properties C20-C26: public keys. *)
From Verif Require Import Base BaseFacts Utf8 Utf8Facts SpecWire SpecText SpecBase64 SpecKeys Reader ReaderFacts
  KeyType KeyTypeFacts PubKeyType Writer WriterFacts WireFacts Base64 Base64Facts Str StrFacts
  Crypto PubKey PubKeyFacts.

(** A supported key type. *)
Definition supported (kt : key_type) : Prop := kt_from_name (kt_name kt) = Ok kt.
Lemma supported_known kt : supported kt <-> known kt.
Proof.
  unfold supported, known. rewrite kt_from_name_ok. intuition.
Qed.

(** ** C20 *)
Theorem C20_blob_round_trip : forall (k : pubkey) (kind : pubkey_kind) (data : bytes),
  supported (pk_type k) -> same_material (pk_kind k) kind -> key_data (pk_type k) kind data ->
  pk_encode k = Ok (field (kt_plain (pk_type k)) ++ data)
  /\ forall post, exists plain,
       kt_from_name (kt_plain (pk_type k)) = Ok plain
       /\ pk_from_bytes (field (kt_plain (pk_type k)) ++ data ++ post) = Ok (mkPubKey plain kind None).
Proof.
  intros k kind data Hs Hm Hd. apply supported_known in Hs. apply key_data_iff in Hd.
  destruct Hd as [Hok ->]. apply (same_material_canon_iff (pk_type k)) in Hm; [|exact Hok]. subst kind.
  split; [rewrite field_enc; apply pk_encode_enc; assumption|]. intros post.
  destruct (known_plain_family _ Hs) as (p & H1 & H2 & H3 & H4 & H5 & H6 & H7). exists p.
  split; [exact H1|]. rewrite field_enc. apply pk_from_bytes_iff. unfold key_ok, enc_key.
  cbn [pk_type pk_kind pk_comment]. split.
  - split; [exact H2|]. split; [reflexivity|]. eapply kind_ok_ext; [| |exact Hok]; congruence.
  - exists post. rewrite H3, <- app_assoc. reflexivity.
Qed.
Print Assumptions C20_blob_round_trip.

Definition ex_sk : key_type := mkKeyType (s2b "sk-ssh-ed25519@openssh.com") (s2b "ED25519-SK") false true
  KEd25519 (s2b "sk-ssh-ed25519@openssh.com").
Definition ex_rsa : key_type := mkKeyType (s2b "rsa-sha2-512") (s2b "RSA") false false KRsa (s2b "ssh-rsa").

Lemma kd_intro kt kind : kind_ok kt kind -> key_data kt kind (enc_kind kind).
Proof. intros H. apply key_data_iff. auto. Qed.

Example C20_case : exists k kind data,
  supported (pk_type k) /\ same_material (pk_kind k) kind /\ key_data (pk_type k) kind data
  /\ kind <> pk_kind k /\ kt_plain (pk_type k) <> kt_name (pk_type k) /\ pk_comment k <> None.
Proof.
  exists (mkPubKey ex_rsa (PkRsa [x00; x01; x00; x01] [x00; xff; x03]) (Some (s2b "me"))),
    (PkRsa [x01; x00; x01] [xff; x03]), (enc_kind (PkRsa [x01; x00; x01] [xff; x03])).
  split; [reflexivity|]. split; [split; reflexivity|]. split.
  - apply kd_intro. cbn. unfold fits. cbn. repeat split; lia.
  - repeat split; discriminate.
Qed.
Example C20_case_sk : exists k data,
  supported (pk_type k) /\ key_data (pk_type k) (pk_kind k) data
  /\ bind (pk_encode k) pk_from_bytes = Ok k.
Proof.
  exists (mkPubKey ex_sk (PkEd25519 [x01; x02] (Some (s2b "ssh:"))) None),
    (enc_kind (PkEd25519 [x01; x02] (Some (s2b "ssh:")))).
  split; [reflexivity|]. split; [apply kd_intro; cbn; unfold fits; cbn; repeat split; lia|reflexivity].
Qed.

(** ** C21 *)
Theorem C21_blobs_canonical : forall (b : bytes) (k : pubkey),
  pk_from_bytes b = Ok k ->
  supported (pk_type k) /\ pk_comment k = None
  /\ exists data post, key_data (pk_type k) (pk_kind k) data
     /\ b = field (kt_name (pk_type k)) ++ data ++ post
     /\ (kt_plain (pk_type k) = kt_name (pk_type k) -> exists e, pk_encode k = Ok e /\ b = e ++ post).
Proof.
  intros b k H. apply pk_from_bytes_iff in H. destruct H as [(H1 & H2 & H3) (post & ->)].
  split; [apply supported_known, H1|]. split; [exact H2|].
  exists (enc_kind (pk_kind k)), post. split; [apply key_data_iff; auto|].
  unfold enc_key. rewrite field_enc, <- app_assoc. split; [reflexivity|].
  intros Hp. eexists. split; [apply pk_encode_enc; [exact H1|]|].
  - rewrite (canon_ok _ _ H3). exact H3.
  - rewrite Hp, (canon_ok _ _ H3), <- app_assoc. reflexivity.
Qed.
Print Assumptions C21_blobs_canonical.

(** Two blobs of the same key differ only in what follows the key: one is a prefix of the other. *)
Theorem C21_same_key_same_blob : forall (b1 b2 : bytes) (k : pubkey),
  pk_from_bytes b1 = Ok k -> pk_from_bytes b2 = Ok k ->
  exists e p1 p2, b1 = e ++ p1 /\ b2 = e ++ p2 /\ pk_from_bytes e = Ok k
    /\ (forall e', (exists p, e = e' ++ p /\ p <> []) -> forall k', pk_from_bytes e' <> Ok k').
Proof.
  intros b1 b2 k H1 H2. apply pk_from_bytes_iff in H1, H2.
  destruct H1 as [Hk (p1 & ->)], H2 as [_ (p2 & ->)]. exists (enc_key k), p1, p2.
  split; [reflexivity|]. split; [reflexivity|]. split.
  - apply pk_from_bytes_iff. split; [exact Hk|]. exists []. rewrite app_nil_r. reflexivity.
  - intros e' (p & He & Hp) k' Hk'. apply pk_from_bytes_iff in Hk'. destruct Hk' as [Hok (q & ->)].
    assert (E : enc_key k ++ [] = enc_key k' ++ q ++ p) by (rewrite app_nil_r, He, <- app_assoc; reflexivity).
    unfold enc_key in E. rewrite <- !app_assoc in E. destruct Hk as (K1 & K2 & K3), Hok as (O1 & O2 & O3).
    apply enc_bytes_inj in E; [|apply known_fits; assumption|apply known_fits; assumption].
    destruct E as [En E].
    assert (T : pk_type k = pk_type k').
    { apply known_name_ok in K1, O1. rewrite En in K1. congruence. }
    rewrite <- T in O3. rewrite app_assoc in E. rewrite <- app_assoc in E.
    apply (enc_kind_inj (pk_type k)) in E; auto. destruct E as [_ E].
    symmetry in E. apply app_eq_nil in E. destruct E. contradiction.
Qed.
Print Assumptions C21_same_key_same_blob.

Definition ex_ed : key_type := mkKeyType (s2b "ssh-ed25519") (s2b "ED25519") false false
  KEd25519 (s2b "ssh-ed25519").
Definition ex_ed_key : pubkey := mkPubKey ex_ed (PkEd25519 (repeat x07 32) None) None.
Definition ex_ed_blob : bytes := field (s2b "ssh-ed25519") ++ field (repeat x07 32).
Example C21_case : pk_from_bytes (ex_ed_blob ++ [x01; x02]) = Ok ex_ed_key
  /\ pk_from_bytes ex_ed_blob = Ok ex_ed_key /\ pk_encode ex_ed_key = Ok ex_ed_blob.
Proof. repeat split; vm_compute; reflexivity. Qed.

(** ** C22 *)
Theorem C22_no_panic :
  (forall b, pk_from_bytes b <> Panic) /\ (forall s, pk_from_string s <> Panic)
  /\ (forall k, (exists b, pk_from_bytes b = Ok k) \/ (exists s, pk_from_string s = Ok k) ->
        (exists e, pk_encode k = Ok e) /\ (exists t, pk_display k = Ok t) /\ (exists t, pk_write k = Ok t)
        /\ (forall C f, exists fp, pk_fingerprint_with C k f = Ok fp)).
Proof.
  split; [|split].
  - intros b. unfold pk_from_bytes. apply nopanic_run, nopanic_bind;
      [apply nopanic_read_string|intros; apply nopanic_pk_from_reader].
  - apply nopanic_pk_from_string.
  - intros k H.
    assert (Hk : known (pk_type k) /\ kind_ok (pk_type k) (pk_kind k)).
    { destruct H as [[b H]|[s H]].
      - apply pk_from_bytes_iff in H. destruct H as [(H1 & _ & H2) _]. auto.
      - assert (exists w1 w2 ws, split_whitespace s = w1 :: w2 :: ws) as (w1 & w2 & ws & E).
        { unfold pk_from_string in H. destruct (split_whitespace s) as [|w1 [|w2 ws]]; try discriminate. eauto. }
        apply (pk_from_string_words s w1 w2 ws k E) in H. destruct H as ((H1 & _ & H2) & _). auto. }
    destruct Hk as [H1 H2].
    assert (He : exists e, pk_encode k = Ok e).
    { eexists. apply pk_encode_enc; [exact H1|]. rewrite (canon_ok _ _ H2). exact H2. }
    destruct He as [e He]. split; [eauto|]. unfold pk_display, pk_write, pk_fingerprint_with.
    rewrite He. cbn [bind]. split; [destruct (pk_comment k); eauto|].
    split; [destruct (pk_comment k); eauto|]. eauto.
Qed.
Print Assumptions C22_no_panic.

(** A key built by hand without the application of its hardware type does panic. *)
Example C22_case : pk_from_bytes ex_ed_blob = Ok ex_ed_key
  /\ pk_encode (mkPubKey ex_sk (PkEd25519 (repeat x07 32) None) None) = Panic.
Proof. split; vm_compute; reflexivity. Qed.

(** ** C23 *)
Lemma display_words k e : known (pk_type k) -> pk_encode k = Ok e -> e <> [] ->
  exists t, pk_display k = Ok t
    /\ split_whitespace t = kt_name (pk_type k) :: b64_encode e
         :: match pk_comment k with Some c => split_whitespace c | None => [] end.
Proof.
  intros Hk He Hn. unfold pk_display. rewrite He. cbn [bind].
  assert (W1 : word (kt_name (pk_type k))) by apply known_word, Hk.
  assert (W2 : word (b64_encode e)) by apply b64_encode_word, Hn.
  destruct (pk_comment k) as [c|]; eexists; (split; [reflexivity|]); change [space] with [x20].
  - rewrite !split_words_space by assumption. reflexivity.
  - rewrite split_words_space by assumption. rewrite (split_word _ W2). reflexivity.
Qed.

Theorem C23_text_round_trip : forall (k : pubkey) (kind : pubkey_kind) (data : bytes) (comment' : option bytes),
  supported (pk_type k) -> same_material (pk_kind k) kind -> key_data (pk_type k) kind data ->
  (** what is left of the comment is its first word *)
  match pk_comment k with
  | Some c => exists ws, words_of c ws /\ comment' = hd_error ws
  | None => comment' = None
  end ->
  exists t, pk_display k = Ok t
    /\ pk_from_string t =
       if bytes_eqb (kt_name (pk_type k)) (kt_plain (pk_type k))
       then Ok (mkPubKey (pk_type k) kind comment') else Err EKeyTypeMismatch.
Proof.
  intros k kind data cm Hs Hm Hd Hc. apply supported_known in Hs. apply key_data_iff in Hd.
  destruct Hd as [Hok ->]. apply (same_material_canon_iff (pk_type k)) in Hm; [|exact Hok]. subst kind.
  pose proof (pk_encode_enc k Hs Hok) as He.
  destruct (display_words k _ Hs He (enc_bytes_nonempty _ _)) as (t & Ht & Hw).
  exists t. split; [exact Ht|].
  assert (Hcm : hd_error match pk_comment k with Some c => split_whitespace c | None => [] end = cm).
  { destruct (pk_comment k) as [c|]; [|subst; reflexivity]. destruct Hc as (ws & Hws & ->).
    apply words_of_split in Hws. rewrite Hws. reflexivity. }
  destruct (bytes_eqb _ _) eqn:E.
  - apply bytes_eqb_eq in E. apply (pk_from_string_words _ _ _ _ _ Hw). unfold key_ok, no_comment, enc_key.
    cbn [pk_type pk_kind pk_comment]. split; [auto|]. split; [reflexivity|]. split; [symmetry; exact Hcm|].
    exists []. rewrite app_nil_r, b64_decode_encode, E. reflexivity.
  - unfold pk_from_string. rewrite Hw. cbn [nth_error ok_or bind].
    rewrite (known_name_ok _ Hs). cbn [bind]. rewrite b64_decode_encode. cbn [ok_or bind].
    unfold run, mbind at 1.
    set (bl := enc_bytes _ ++ enc_kind _).
    assert (Hr : read_string (reader_new bl)
             = (Ok (kt_plain (pk_type k)), mkReader bl (0 + length (enc_bytes (kt_plain (pk_type k)))))).
    { apply parses_read_string. exists (enc_bytes (kt_plain (pk_type k))), (enc_kind (canon (pk_kind k))).
      split; [|split; reflexivity]. split; [|reflexivity].
      split; [apply known_fits, Hs|apply known_utf8, Hs]. }
    rewrite Hr, E. reflexivity.
Qed.
Print Assumptions C23_text_round_trip.

(** Single-word comments survive; the second word of a comment does not. *)
Corollary C23_single_word_comment : forall (k : pubkey) (data : bytes),
  supported (pk_type k) -> kt_plain (pk_type k) = kt_name (pk_type k) ->
  key_data (pk_type k) (pk_kind k) data ->
  match pk_comment k with Some c => word c | None => True end ->
  exists t, pk_display k = Ok t /\ pk_from_string t = Ok k.
Proof.
  intros k data H1 H2 H3 H4.
  destruct (C23_text_round_trip k (pk_kind k) data (pk_comment k) H1) as (t & Ht & Hp).
  - destruct (pk_kind k); cbn; auto.
  - exact H3.
  - destruct (pk_comment k) as [c|]; [|reflexivity]. exists [c]. split; [|reflexivity].
    apply (W_last [] c); [constructor|exact H4].
  - exists t. split; [exact Ht|]. rewrite Hp, H2, bytes_eqb_refl. destruct k; reflexivity.
Qed.
Print Assumptions C23_single_word_comment.

Theorem C23_every_comment_round_trips_refuted : exists k t k',
  supported (pk_type k) /\ (exists data, key_data (pk_type k) (pk_kind k) data)
  /\ kt_plain (pk_type k) = kt_name (pk_type k)
  /\ pk_display k = Ok t /\ pk_from_string t = Ok k' /\ pk_comment k' <> pk_comment k.
Proof.
  exists (mkPubKey ex_ed (PkEd25519 (repeat x07 32) None) (Some (s2b "John Doe"))).
  do 2 eexists. split; [reflexivity|]. split.
  { exists (enc_kind (PkEd25519 (repeat x07 32) None)). apply kd_intro. cbn. unfold fits. cbn. repeat split; lia. }
  split; [reflexivity|]. split; [vm_compute; reflexivity|]. split; [vm_compute; reflexivity|discriminate].
Qed.
Print Assumptions C23_every_comment_round_trips_refuted.

Example C23_case :
  pk_from_string (s2b "ssh-ed25519 AAAAC3NzaC1lZDI1NTE5AAAAIHkbe7gwx7s0dlApEEzpUyOAPrzPLy4czEZw/sh8m8rd me@home")
  = Ok (mkPubKey ex_ed (PkEd25519
      [x79; x1b; x7b; xb8; x30; xc7; xbb; x34; x76; x50; x29; x10; x4c; xe9; x53; x23; x80; x3e; xbc; xcf;
       x2f; x2e; x1c; xcc; x46; x70; xfe; xc8; x7c; x9b; xca; xdd] None) (Some (s2b "me@home"))).
Proof. vm_compute. reflexivity. Qed.

(** ** C24 *)
Theorem C24_label_matches_blob : forall (s : bytes) (ws : list bytes), words_of s ws ->
  match ws with
  | label :: b64 :: more =>
      (** success, exactly *)
      (forall k, pk_from_string s = Ok k <->
         kt_name (pk_type k) = label /\ supported (pk_type k) /\ pk_comment k = hd_error more
         /\ exists pad data post, key_data (pk_type k) (pk_kind k) data
              /\ base64_text (field label ++ data ++ post) (b64 ++ repeat x3d pad))
      (** relabelling *)
      /\ (forall kt blob name rest, kt_from_name label = Ok kt ->
            b64_decode b64 = Some blob -> blob = field name ++ rest -> field_ok name -> utf8_text name ->
            name <> label -> pk_from_string s = Err EKeyTypeMismatch)
  | _ => pk_from_string s = Err EInvalidFormat
  end.
Proof.
  intros s ws H. apply words_of_split in H. destruct ws as [|label [|b64 more]].
  - unfold pk_from_string. rewrite H. reflexivity.
  - unfold pk_from_string. rewrite H. reflexivity.
  - split.
    + intros k. rewrite (pk_from_string_words _ _ _ _ k H). unfold key_ok, no_comment, enc_key.
      cbn [pk_type pk_kind pk_comment]. split.
      * intros ((K1 & _ & K2) & <- & K3 & post & K4). split; [reflexivity|].
        split; [apply supported_known, K1|]. split; [exact K3|]. apply b64_decode_iff in K4.
        destruct K4 as [pad K4]. exists pad, (enc_kind (pk_kind k)), post. rewrite field_enc.
        rewrite <- app_assoc in K4. split; [apply key_data_iff; auto|exact K4].
      * intros (<- & K1 & K3 & pad & data & post & K2 & K4). apply key_data_iff in K2.
        destruct K2 as [K2 ->]. apply supported_known in K1. split; [auto|]. split; [reflexivity|].
        split; [exact K3|]. exists post. apply b64_decode_iff. exists pad.
        rewrite field_enc in K4. rewrite <- app_assoc. exact K4.
    + intros kt blob name rest Hk Hb -> Hf Hu Hn. unfold pk_from_string. rewrite H.
      cbn [nth_error ok_or bind]. rewrite Hk. cbn [bind]. rewrite Hb. cbn [ok_or bind].
      unfold run, mbind at 1.
      assert (Hr : read_string (reader_new (field name ++ rest))
               = (Ok name, mkReader (field name ++ rest) (0 + length (enc_bytes name)))).
      { apply parses_read_string. rewrite field_enc. exists (enc_bytes name), rest.
        split; [|split; reflexivity]. split; [|reflexivity].
        split; [apply field_ok_fits, Hf|apply utf8_valid_iff, Hu]. }
      rewrite Hr. replace (bytes_eqb label name) with false; [reflexivity|].
      symmetry. apply bytes_eqb_neq. congruence.
Qed.
Print Assumptions C24_label_matches_blob.

Example C24_case : exists w more,
  words_of (s2b "ssh-rsa  AAAAC3NzaC1lZDI1NTE5AAAAAQc= x") (s2b "ssh-rsa" :: w :: more)
  /\ (exists rest, b64_decode w = Some (field (s2b "ssh-ed25519") ++ rest))
  /\ pk_from_string (s2b "ssh-rsa  AAAAC3NzaC1lZDI1NTE5AAAAAQc= x") = Err EKeyTypeMismatch
  /\ pk_from_string (s2b "ssh-rsa ") = Err EInvalidFormat.
Proof.
  exists (s2b "AAAAC3NzaC1lZDI1NTE5AAAAAQc="), [s2b "x"]. split.
  { apply split_whitespace_iff; [apply utf8_valid_iff; reflexivity|reflexivity]. }
  split; [exists (field [x07]); vm_compute; reflexivity|]. split; vm_compute; reflexivity.
Qed.

(** ** C25 *)
Definition digest_of (C : crypto) (f : fp_kind) : bytes -> bytes :=
  match f with FpSha256 => c_sha256 C | FpSha384 => c_sha384 C | FpSha512 => c_sha512 C end.
Definition fp_prefix (f : fp_kind) : bytes :=
  s2b match f with FpSha256 => "SHA256:" | FpSha384 => "SHA384:" | FpSha512 => "SHA512:" end.

Theorem C25_fingerprint_text : forall (C : crypto) (k : pubkey) (f : fp_kind) (fp : fingerprint),
  pk_fingerprint_with C k f = Ok fp ->
  exists e pad, pk_encode k = Ok e /\ base64_text (digest_of C f e) (fp_hash fp ++ repeat x3d pad)
    /\ ~ In x3d (fp_hash fp) /\ fp_display fp = fp_prefix f ++ fp_hash fp
    /\ forall c, pk_fingerprint_with C (mkPubKey (pk_type k) (pk_kind k) c) f = Ok fp.
Proof.
  intros C k f fp H. unfold pk_fingerprint_with in *. destruct (pk_encode k) as [e| |] eqn:He; try discriminate.
  cbn [bind] in H. injection H as <-. exists e.
  assert (Hh : fp_hash (fp_compute C f e) = b64_core (digest_of C f e)).
  { unfold fp_compute. cbn [fp_hash]. rewrite take_until_encode. destruct f; reflexivity. }
  exists (npad (digest_of C f e)). rewrite Hh. split; [reflexivity|]. split.
  { change x3d with Base64.pad. rewrite <- b64_encode_core. apply b64_encode_text. }
  split; [apply b64_core_no_pad|]. split.
  { unfold fp_display. rewrite Hh. destruct f; reflexivity. }
  intros c. change (pk_encode (mkPubKey (pk_type k) (pk_kind k) c)) with (pk_encode k). rewrite He. reflexivity.
Qed.
Print Assumptions C25_fingerprint_text.

(** Keys as they come out of the parsers: canonical data. *)
Theorem C25_fingerprint_identifies : forall (C : crypto) (f : fp_kind) (k1 k2 : pubkey) (d1 d2 : bytes) (fp : fingerprint),
  supported (pk_type k1) -> supported (pk_type k2) ->
  kt_plain (pk_type k1) = kt_name (pk_type k1) -> kt_plain (pk_type k2) = kt_name (pk_type k2) ->
  key_data (pk_type k1) (pk_kind k1) d1 -> key_data (pk_type k2) (pk_kind k2) d2 ->
  pk_fingerprint_with C k1 f = Ok fp -> pk_fingerprint_with C k2 f = Ok fp ->
  (pk_type k1 = pk_type k2 /\ pk_kind k1 = pk_kind k2)
  \/ exists x y, x <> y /\ digest_of C f x = digest_of C f y.
Proof.
  intros C f k1 k2 d1 d2 fp S1 S2 P1 P2 D1 D2 F1 F2.
  apply supported_known in S1, S2. apply key_data_iff in D1, D2. destruct D1 as [O1 _], D2 as [O2 _].
  unfold pk_fingerprint_with in *.
  rewrite pk_encode_enc in F1 by (rewrite ?(canon_ok _ _ O1); auto).
  rewrite pk_encode_enc in F2 by (rewrite ?(canon_ok _ _ O2); auto).
  cbn [bind] in *. rewrite (canon_ok _ _ O1) in F1. rewrite (canon_ok _ _ O2) in F2.
  rewrite P1 in F1. rewrite P2 in F2.
  set (e1 := enc_bytes (kt_name (pk_type k1)) ++ enc_kind (pk_kind k1)) in *.
  set (e2 := enc_bytes (kt_name (pk_type k2)) ++ enc_kind (pk_kind k2)) in *.
  assert (Hh : forall e, fp_hash (fp_compute C f e) = b64_core (digest_of C f e)).
  { intros e. unfold fp_compute. cbn [fp_hash]. rewrite take_until_encode. destruct f; reflexivity. }
  assert (E : digest_of C f e1 = digest_of C f e2).
  { assert (B : b64_core (digest_of C f e1) = b64_core (digest_of C f e2)) by (rewrite <- !Hh; congruence).
    pose proof (b64_decode_core_pad (digest_of C f e1) 0 ltac:(lia)) as Q1.
    pose proof (b64_decode_core_pad (digest_of C f e2) 0 ltac:(lia)) as Q2.
    rewrite B in Q1. congruence. }
  destruct (bytes_dec e1 e2) as [Ee|Ne]; [left|right; exists e1, e2; auto].
  unfold e1, e2 in Ee. apply enc_bytes_inj in Ee; [|apply known_fits; assumption|apply known_fits; assumption].
  destruct Ee as [En Ek].
  assert (T : pk_type k1 = pk_type k2).
  { apply known_name_ok in S1, S2. rewrite En in S1. congruence. }
  split; [exact T|]. rewrite <- T in O2.
  apply (enc_kind_inj (pk_type k1) _ _ [] []); auto. rewrite !app_nil_r. exact Ek.
Qed.
Print Assumptions C25_fingerprint_identifies.

(** With a digest that is the identity, the fingerprint is the unpadded base64 of the blob. *)
Definition ex_crypto : crypto := mkCrypto (fun x => x) (fun x => x) (fun x => x)
  (fun _ _ _ => true) (fun _ _ _ => true) (fun _ _ _ => true) (fun _ _ _ _ _ => true).
Example C25_case : supported ex_ed
  /\ bind (pk_fingerprint ex_crypto ex_ed_key) (fun f => Ok (fp_display f))
     = Ok (s2b "SHA256:AAAAC3NzaC1lZDI1NTE5AAAAIAcHBwcHBwcHBwcHBwcHBwcHBwcHBwcHBwcHBwcHBwcH")
  /\ (exists fp, pk_fingerprint_with ex_crypto
        (mkPubKey ex_sk (PkEd25519 [x01] (Some (s2b "ssh:"))) None) FpSha512 = Ok fp).
Proof. split; [reflexivity|]. split; [vm_compute; reflexivity|]. eexists. vm_compute. reflexivity. Qed.

(** ** C26 *)
Theorem C26_bits : forall (k : pubkey),
  match pk_kind k with
  | PkRsa e n => pk_bits k = 8 * length n
      (** a modulus held without leading zeros has between bits-7 and bits significant bits *)
      /\ (shortest n -> n <> [] -> (2 ^ N.of_nat (pk_bits k - 8) <= magnitude n < 2 ^ N.of_nat (pk_bits k))%N)
  | PkEcdsa c key app => supported_curve c ->
      (c_identifier c = s2b "nistp256" -> pk_bits k = 256)
      /\ (c_identifier c = s2b "nistp384" -> pk_bits k = 384)
      /\ (c_identifier c = s2b "nistp521" -> pk_bits k = 521)
  | PkEd25519 key app => pk_bits k = 256
  end.
Proof.
  intros k. unfold pk_bits. destruct (pk_kind k) as [e n|c key app|key app].
  - split; [lia|]. intros Hs Hn. rewrite magnitude_from_be. apply shortest_iff in Hs.
    destruct n as [|b n]; [congruence|]. cbn [no_lead_zero] in Hs.
    assert (P : forall j, (2 ^ N.of_nat (j * 8) = 256 ^ N.of_nat j)%N).
    { intros j. change 256%N with (2 ^ 8)%N. rewrite <- N.pow_mul_r. f_equal. lia. }
    split.
    + cbn [length]. replace (S (length n) * 8 - 8) with (length n * 8) by lia. rewrite P.
      pose proof (from_be_ge b n). nia.
    + rewrite P. apply from_be_bound.
  - intros Hc. apply supported_curve_iff in Hc. destruct Hc as [->|[->| ->]]; cbn; repeat split; intros; try reflexivity; discriminate.
  - reflexivity.
Qed.
Print Assumptions C26_bits.

Example C26_case : pk_bits (mkPubKey ex_rsa (PkRsa [x01; x00; x01] (xc0 :: repeat x01 255)) None) = 2048
  /\ supported_curve (mkCurve Nistp521 (s2b "nistp521"))
  /\ pk_bits (mkPubKey ex_rsa (PkEcdsa (mkCurve Nistp521 (s2b "nistp521")) [] None) None) = 521.
Proof. repeat split. Qed.

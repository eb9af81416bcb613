(** Properties C12-C14 (principals and options), C27, C35-C44 (certificates). *)
From Coq Require Import Permutation.
From Verif Require Import Base BaseFacts Utf8 Utf8Facts Str StrFacts Base64 Base64Facts SpecWire SpecText SpecBase64 SpecKeys
  SpecSig SpecCert Reader ReaderFacts LocalFacts KeyType KeyTypeFacts PubKeyType Writer WriterFacts WireFacts
  Crypto PubKey PubKeyFacts Signature SignatureFacts Cert CertFacts TbsFacts.

(** ** C12 *)
Theorem C12_accepts_exactly : forall (buf : bytes) (ps : list bytes),
  read_principals buf = Ok ps <-> principals_data ps buf.
Proof. intros. symmetry. apply principals_data_iff. Qed.
Print Assumptions C12_accepts_exactly.

Theorem C12_total : forall buf : bytes, read_principals buf <> Panic.
Proof. apply read_principals_not_panic. Qed.
Print Assumptions C12_total.

Theorem C12_round_trip : forall (ps : list bytes) (w : bytes),
  Forall utf8_text ps -> field_ok (concat (map field ps)) ->
  exists body, write_string_vec ps w = w ++ field body /\ field_ok body /\ read_principals body = Ok ps.
Proof.
  intros ps w Hu Hf. exists (concat (map field ps)).
  assert (E : map field ps = map enc_bytes ps) by (apply map_ext; intros; apply field_enc).
  rewrite E in *. rewrite field_ok_fits in *. split.
  - rewrite write_string_vec_enc by exact Hf. unfold enc_vec. rewrite field_enc. reflexivity.
  - split; [exact Hf|]. apply read_principals_iff. split; [|reflexivity]. apply fits_vec_each in Hf.
    rewrite Forall_forall in *. intros x Hx. split; [auto|apply utf8_valid_iff; auto].
Qed.
Print Assumptions C12_round_trip.

Example C12_case : exists ps body,
  length ps = 3 /\ In [] ps /\ principals_data ps body /\ write_string_vec ps [] = field body
  /\ read_principals (body ++ [x00]) = Err EInvalidFormat.
Proof.
  exists [s2b "root"; []; s2b "root"], (concat (map field [s2b "root"; []; s2b "root"])).
  split; [reflexivity|]. split; [right; left; reflexivity|].
  split; [apply C12_accepts_exactly; vm_compute; reflexivity|]. split; vm_compute; reflexivity.
Qed.

(** ** C13 *)
Lemma options_size_body m : options_size m = N.of_nat (length (enc_map_body m)).
Proof.
  unfold enc_map_body. induction m as [|[k v] m IH]; [reflexivity|]. cbn [options_size map concat].
  rewrite app_length, enc_entry_length, IH. unfold size. cbn [fst snd]. destruct v; cbn [length]; lia.
Qed.
Lemma options_size_perm m m' : Permutation m m' -> options_size m = options_size m'.
Proof.
  induction 1 as [|[k v] a b _ IH|[k v] [k' v'] a|a b c _ IH1 _ IH2]; cbn [options_size]; lia.
Qed.

Theorem C13_round_trip : forall (m order : list (bytes * bytes)) (w : bytes),
  text_map m -> Permutation order m -> (options_size m <= u32_max)%N ->
  exists body r, write_string_map order w = Ok (w ++ field body)
    /\ size body = options_size m
    /\ read_options body = Ok r /\ same_map r m /\ NoDup (map fst r).
Proof.
  intros m order w [Hn Hu] P Hs. exists (enc_map_body order), (insert_all order []).
  assert (Hf : fits_map order).
  { unfold fits_map, fits. rewrite <- options_size_body, (options_size_perm _ _ P). unfold u32_max in Hs. lia. }
  split; [rewrite write_string_map_enc by exact Hf; unfold enc_map; rewrite field_enc; reflexivity|].
  split; [unfold size; rewrite <- options_size_body; apply options_size_perm, P|].
  split; [apply read_options_iff; exists order; split; [|reflexivity]|].
  - apply entries_rel_map; [exact Hf|]. eapply Permutation_Forall; [symmetry; exact P|exact Hu].
  - split; [|apply insert_all_nodup; constructor]. apply (insert_all_iter (fun _ => order) m P Hn).
Qed.
Print Assumptions C13_round_trip.

Example C13_case : exists m order,
  text_map m /\ Permutation order m /\ order <> m /\ (options_size m <= u32_max)%N /\ length m = 2
  /\ (do? w <- write_string_map order []; read_options (skipn 4 w)) = Ok order.
Proof.
  exists [(s2b "force-command", s2b "ls"); (s2b "no-touch", [])], [(s2b "no-touch", []); (s2b "force-command", s2b "ls")].
  split.
  { split; [cbn; repeat constructor; cbn; intuition discriminate|].
    repeat constructor; cbn; apply utf8_valid_iff; reflexivity. }
  split; [apply perm_swap|]. split; [discriminate|]. split; [vm_compute; discriminate|]. split; [reflexivity|].
  vm_compute. reflexivity.
Qed.

(** ** C14 *)
Theorem C14_last_entry_wins : forall (buf : bytes) (m : list (bytes * bytes)),
  read_options buf = Ok m -> exists entries, options_data entries buf /\ map_of entries m.
Proof.
  intros buf m H. apply read_options_iff in H. destruct H as (l & H & ->). exists l.
  split; [apply options_data_iff, H|apply map_of_insert_all].
Qed.
Print Assumptions C14_last_entry_wins.

Theorem C14_accepts_exactly : forall (buf : bytes) (entries : list (bytes * bytes)),
  options_data entries buf -> exists m, read_options buf = Ok m /\ map_of entries m.
Proof.
  intros buf l H. exists (insert_all l []). split; [|apply map_of_insert_all].
  apply read_options_iff. exists l. split; [apply options_data_iff, H|reflexivity].
Qed.
Print Assumptions C14_accepts_exactly.

Theorem C14_total : forall buf : bytes, read_options buf <> Panic.
Proof. apply read_options_not_panic. Qed.
Print Assumptions C14_total.

Example C14_case : exists entries buf,
  options_data entries buf /\ length entries = 3
  /\ read_options buf = Ok [(s2b "a", s2b "second"); (s2b "b", [])].
Proof.
  exists [(s2b "a", s2b "first"); (s2b "b", []); (s2b "a", s2b "second")],
    (field (s2b "a") ++ field (field (s2b "first") ++ []) ++ field (s2b "b") ++ field []
     ++ field (s2b "a") ++ field (field (s2b "second") ++ [x00]) ++ []).
  split; [|split; [reflexivity|vm_compute; reflexivity]].
  assert (T : forall s, utf8_valid s = true -> (size s <= u32_max)%N -> text_ok s)
    by (intros s H1 H2; split; [apply utf8_valid_iff, H1|exact H2]).
  constructor; [apply T; [reflexivity|vm_compute; discriminate]|constructor 2; [apply T; [reflexivity|vm_compute; discriminate]|vm_compute; discriminate]|].
  constructor; [apply T; [reflexivity|vm_compute; discriminate]|constructor 1|].
  constructor; [apply T; [reflexivity|vm_compute; discriminate]|constructor 2; [apply T; [reflexivity|vm_compute; discriminate]|vm_compute; discriminate]|].
  constructor.
Qed.

(** ** An example certificate *)
(** Primitives that accept every three-byte Ed25519 signature. *)
Definition lax_crypto : crypto :=
  mkCrypto (fun _ => repeat x11 32) (fun _ => repeat x22 48) (fun _ => repeat x33 64)
    (fun _ _ _ => false) (fun _ _ _ => false) (fun _ _ s => length s =? 3) (fun _ _ _ _ _ => false).
Definition ed_type : key_type :=
  mkKeyType (s2b "ssh-ed25519") (s2b "ED25519") false false KEd25519 (s2b "ssh-ed25519").
Definition ex_subject : pubkey := mkPubKey ed_type (PkEd25519 [x61; x62] None) (Some (s2b "me@host")).
Definition ex_ca : pubkey := mkPubKey ed_type (PkEd25519 [x63; x64] None) None.
Definition ex_sig : bytes := field (s2b "ssh-ed25519") ++ field [x01; x02; x03].
Definition ex_ops : list build_op :=
  [OpSerial 9; OpKeyId (s2b "alice laptop"); OpPrincipal (s2b "alice"); OpPrincipal (s2b "root");
   OpValidAfter 10; OpValidBefore 20; OpCriticalOption (s2b "force-command") (s2b "ls");
   OpSetExtensions standard_extensions; OpSerial 7].
Definition ex_request : res cert :=
  do? c <- builder (Some [xaa; xbb]) (Some [x00; x00; x00; x00; x00; x00; x00; x01]) ex_subject User ex_ca;
  Ok (apply_ops c ex_ops).
Definition ex_cert : res cert := do? c <- ex_request; add_signature lax_crypto (@rev _) c ex_sig.
Definition ex_data : bytes := match ex_cert with Ok c => ct_serialized c | _ => [] end.

(** ** C27 *)
Definition ed25519_cert_name : bytes := s2b "ssh-ed25519-cert-v01@openssh.com".

Theorem C27_blob_yields_nonce : forall (C : crypto) (data : bytes) (c : cert),
  cert_from_bytes C data = Ok c -> kt_name (ct_key_type c) = ed25519_cert_name ->
  exists k, pk_from_bytes data = Ok k /\ pk_kind k = PkEd25519 (ct_nonce c) None
    /\ pk_type k = ct_key_type c.
Proof.
  intros C data c H Hn. apply cert_from_bytes_iff in H. destruct H as (sp & post & Hc & -> & _).
  destruct Hc as (pb & cb & eb & skb & skpost & Hkt & Hcert & Hnonce & _ & _ & _ & _ & _ & _
      & _ & _ & _ & _ & _ & _ & _ & _ & _ & _ & _ & _ & ->).
  assert (E : kt_from_name ed25519_cert_name = Ok (ct_key_type c)) by (rewrite <- Hn; apply known_name_ok, Hkt).
  exists (mkPubKey (ct_key_type c) (PkEd25519 (ct_nonce c) None) None). split; [|auto].
  apply pk_from_bytes_iff. split.
  - split; [exact Hkt|]. split; [reflexivity|]. cbn [pk_type pk_kind].
    revert E. generalize (ct_key_type c). intros kt E. vm_compute in E. injection E as <-. cbn [kind_ok kt_k kt_is_sk family_of app_ok]. auto.
  - unfold enc_key. cbn [pk_type pk_kind enc_kind enc_app]. rewrite app_nil_r, <- !app_assoc.
    eexists. rewrite <- !app_assoc. reflexivity.
Qed.
Print Assumptions C27_blob_yields_nonce.

Theorem C27_text_yields_nonce : forall (C : crypto) (data : bytes) (c : cert),
  cert_from_bytes C data = Ok c -> kt_name (ct_key_type c) = ed25519_cert_name ->
  exists k, pk_from_string (cert_display c) = Ok k /\ pk_kind k = PkEd25519 (ct_nonce c) None
    /\ pk_type k = ct_key_type c.
Proof.
  intros C data c H Hn. assert (HK := C27_blob_yields_nonce C data c H Hn).
  destruct HK as (k & Hk & Hkind & Htype). apply pk_from_bytes_iff in Hk. destruct Hk as [(K1 & K2 & K3) (post & Hp)].
  apply cert_from_bytes_iff in H. destruct H as (sp & post' & Hc & Hd & _ & _ & _ & Hser).
  exists (mkPubKey (pk_type k) (pk_kind k) (hd_error (split_whitespace (ct_key_id c)))). split; [|auto].
  assert (W : split_whitespace (cert_display c)
              = kt_name (ct_key_type c) :: b64_encode data :: split_whitespace (ct_key_id c)).
  { unfold cert_display. rewrite Hser. change [space] with [x20].
    rewrite split_words_space by (rewrite <- Htype; apply known_word, K1).
    rewrite split_words_space; [reflexivity|]. apply b64_encode_word. rewrite Hp. unfold enc_key.
    rewrite <- app_assoc. apply enc_bytes_nonempty. }
  apply (pk_from_string_words _ _ _ _ _ W). cbn [pk_type pk_kind pk_comment no_comment].
  split; [repeat split; assumption|]. split; [rewrite Htype; reflexivity|]. split; [reflexivity|].
  exists post. rewrite b64_decode_encode, Hp. reflexivity.
Qed.
Print Assumptions C27_text_yields_nonce.

(** The nonce is not the certified key. *)
Example C27_case : exists c,
  cert_from_bytes lax_crypto ex_data = Ok c /\ kt_name (ct_key_type c) = ed25519_cert_name
  /\ pk_kind (ct_key c) = PkEd25519 [x61; x62] None /\ ct_nonce c = [xaa; xbb].
Proof. eexists. vm_compute. repeat split. Qed.

(** ** C35 *)
Theorem C35_valid_signature : forall (C : crypto) (data : bytes) (c : cert),
  cert_from_bytes C data = Ok c ->
  exists sp rest, data = sp ++ field (ct_signature c) ++ rest
    /\ signed_part c sp /\ accepted C (ct_signature_key c) sp (ct_signature c).
Proof.
  intros C data c H. apply cert_from_bytes_iff in H. destruct H as (sp & post & Hc & -> & Hf & Ha & _).
  exists sp, post. rewrite field_enc. split; [reflexivity|]. split; [apply core_signed, Hc|exact Ha].
Qed.
Print Assumptions C35_valid_signature.

(** Conversely every such byte string is accepted (map fields up to their order). *)
Theorem C35_accepts_exactly : forall (C : crypto) (sp sg rest : bytes) (c : cert),
  signed_part c sp -> field_ok sg -> accepted C (ct_signature_key c) sp sg ->
  exists c', cert_from_bytes C (sp ++ field sg ++ rest) = Ok c'
    /\ same_signed_fields c' c /\ ct_signature c' = sg /\ ct_comment c' = None.
Proof.
  intros C sp sg rest c H Hf Ha. apply signed_core in H. destruct H as (c0 & Hc & Hs & _).
  exists (seal c0 sg (sp ++ field sg ++ rest)). split; [|split; [exact Hs|split; reflexivity]].
  apply cert_from_bytes_iff. exists sp, rest.
  split; [exact (core_seal _ _ _ _ Hc)|]. rewrite field_enc. split; [reflexivity|].
  split; [apply field_ok_fits, Hf|]. split; [|split; reflexivity].
  cbn [seal ct_signature_key ct_signature]. destruct Hs as (_ & _ & _ & _ & _ & _ & _ & _ & _ & _ & _ & _ & ->). exact Ha.
Qed.
Print Assumptions C35_accepts_exactly.

Example C35_case : exists c, cert_from_bytes lax_crypto ex_data = Ok c
  /\ ct_principals c = [s2b "alice"; s2b "root"] /\ ct_serial c = 7%N /\ length (ct_extensions c) = 5.
Proof. eexists. split; [vm_compute; reflexivity|]. vm_compute. auto. Qed.

(** ** C36 *)
Theorem C36_fields_from_signed_bytes : forall (C C' : crypto) (sp x y : bytes) (c c' : cert),
  cert_from_bytes C (sp ++ x) = Ok c -> signed_part c sp ->
  cert_from_bytes C' (sp ++ y) = Ok c' -> same_signed_fields c c' /\ signed_part c' sp.
Proof.
  intros C C' sp x y c c' _ Hs H'. apply C35_valid_signature in H'. destruct H' as (sp' & r' & E & Hs' & _).
  destruct (signed_prefix c c' _ _ _ _ Hs Hs' E) as (Hsame & -> & _). auto.
Qed.
Print Assumptions C36_fields_from_signed_bytes.

(** The signed part is determined by the input, and prefix-free. *)
Theorem C36_signed_part_unique : forall (c c' : cert) (sp sp' x y : bytes),
  signed_part c sp -> signed_part c' sp' -> sp ++ x = sp' ++ y -> sp = sp' /\ x = y /\ same_signed_fields c c'.
Proof. intros c c' sp sp' x y H H' E. destruct (signed_prefix c c' _ _ _ _ H H' E) as (? & ? & ?). auto. Qed.
Print Assumptions C36_signed_part_unique.

Example C36_case : exists sp x y c c',
  x <> y /\ cert_from_bytes lax_crypto (sp ++ x) = Ok c /\ cert_from_bytes lax_crypto (sp ++ y) = Ok c'
  /\ signed_part c sp.
Proof.
  destruct (C35_valid_signature lax_crypto ex_data) with (c := match cert_from_bytes lax_crypto ex_data with Ok c => c | _ => mkCert ed_type [] ex_ca 0 User [] [] 0 0 [] [] [] ex_ca [] None [] end)
    as (sp & rest & E & Hs & Ha).
  { vm_compute. reflexivity. }
  exists sp, (field ex_sig ++ rest), (field ex_sig ++ rest ++ [x05]).
  set (c := match cert_from_bytes lax_crypto ex_data with Ok c => c | _ => _ end) in *.
  assert (Es : ct_signature c = ex_sig) by (vm_compute; reflexivity).
  rewrite Es in *. assert (F : field_ok ex_sig) by (vm_compute; discriminate).
  destruct (C35_accepts_exactly lax_crypto sp ex_sig rest c Hs F Ha) as (c1 & H1 & S1 & _).
  destruct (C35_accepts_exactly lax_crypto sp ex_sig (rest ++ [x05]) c Hs F Ha) as (c2 & H2 & _).
  exists c1, c2. split.
  { intros X. apply app_inv_head in X. apply f_equal with (f := @length byte) in X. rewrite app_length in X. cbn in X. lia. }
  split; [exact H1|]. split; [exact H2|].
  assert (c1 = c). { rewrite <- E in H1. assert (X : cert_from_bytes lax_crypto ex_data = Ok c) by (vm_compute; reflexivity). congruence. }
  subst c1. exact Hs.
Qed.

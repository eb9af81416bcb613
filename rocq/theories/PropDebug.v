(** Property C118: derived debugging output of keys. *)
From Verif Require Import Base BaseFacts Utf8 Utf8Facts Str SpecWire SpecSigner SpecKeys SpecPrivKey KeyType KeyTypeFacts PubKeyType Crypto
  PubKey PrivKey PrivKeyFacts TbsFacts AllowedSigner Generate Show PropCert PropPrivKey Debug SpecDebug DebugFacts.

(** Keys that are read hold only Unicode texts, and so do keys given a PIN and a device path. *)
Lemma known_texts t : known t -> type_texts t.
Proof.
  revert t. apply (known_forall type_texts). unfold key_types.
  repeat (apply Forall_cons; [split; [|split]; apply utf8_valid_iff; reflexivity|]). apply Forall_nil.
Qed.
Lemma curve_texts c : supported_curve c -> utf8_text (c_identifier c).
Proof.
  unfold supported_curve. intros ->. apply utf8_valid_iff. destruct (c_kind c); reflexivity.
Qed.
Lemma app_texts b app x : app_field b app x -> text_option app.
Proof.
  unfold app_field. destruct b, app as [a|]; intros H; try contradiction; [|discriminate]. intros s [= <-]. apply H.
Qed.
Lemma data_texts kt k b : key_data kt k b -> kind_texts k.
Proof.
  destruct 1 as [|c key app b _ H _ A|key app b _ _ A]; cbn [kind_texts]; [exact I| |eapply app_texts; exact A].
  split; [apply curve_texts, H|eapply app_texts; exact A].
Qed.
Lemma no_text : text_option None. Proof. discriminate. Qed.
Lemma secret_texts F kt p s b : secret_data F kt p s b -> kind_texts p /\ priv_kind_texts s.
Proof.
  destruct 1 as [n e d i p q dp dq bn be bd bi bp bq _ _ _ _ _ _ _ _ _|c pk b key D _|pk b key D _
    |c pk app b fl h rs D|pk app b fl h rs D]; try (pose proof (data_texts _ _ _ D) as T); cbn [priv_kind_texts hw_pin hw_device_path].
  - split; exact I.
  - split; [exact T|exact (proj1 T)].
  - split; [exact T|exact I].
  - split; [exact T|split; apply no_text].
  - split; [exact T|split; apply no_text].
Qed.
Theorem C118_read_keys : forall (F : features) (K : keyops) (text : bytes) (pass : option bytes) (k : privkey) (pin path : bytes),
  sk_from_string F K text pass = Ok k -> utf8_text pin -> utf8_text path ->
  priv_texts k /\ priv_texts (set_pin pin k) /\ priv_texts (set_device_path path (set_pin pin k)).
Proof.
  intros F K text pass k pin path H Hp Hd. rewrite sk_from_string_decode in H. apply bind_ok in H as (d & _ & H).
  apply file_iff in H. destruct H as (ci & kd & op & ppost & pkb & se & pl & pad & tl & _ & _ & _ & _ & _ & _ & _ & _ & _ & _ & (_ & b & D & _) & _).
  destruct D as (kt & b' & Kt & _ & E1 & E2 & E3 & S & U & _). apply kt_from_name_ok in Kt as [Kt _]. apply known_texts in Kt.
  apply secret_texts in S as [S1 S2].
  assert (P : priv_texts k).
  { unfold priv_texts. rewrite E1. split; [exact Kt|]. split; [|split; [exact U|exact S2]].
    unfold pub_texts. rewrite E2, E3. split; [exact Kt|]. split; [apply no_text|exact S1]. }
  destruct P as (P1 & P2 & P3 & P4). split; [split; auto|].
  assert (Sp : text_option (Some pin)) by (intros s [= <-]; exact Hp).
  assert (Sd : text_option (Some path)) by (intros s [= <-]; exact Hd).
  unfold set_device_path, set_pin. destruct (sk_kind k) as [r|c key|h|key|h] eqn:E; unfold priv_texts, with_kind;
    cbn [sk_type sk_kind sk_pub sk_comment hw_with_pin hw_with_path hw_pin hw_device_path]; rewrite ?E;
    cbn [sk_type sk_kind sk_pub sk_comment hw_with_pin hw_with_path hw_pin hw_device_path]; rewrite ?E; intuition auto.
Qed.
Print Assumptions C118_read_keys.

(** The text is the one that the rules of SpecDebug.v give, to the letter, and those rules allow
    no other. *)
Theorem C118_exact_text : forall (printable : N -> bool) (k : privkey) (t : bytes),
  priv_texts k -> (dbg_privkey printable k = t <-> priv_text printable k t).
Proof.
  intros p k t H. split; [intros <-; apply priv_is_shown, H|]. intros K. exact (only_priv p k _ _ (priv_is_shown p k H) K).
Qed.
Print Assumptions C118_exact_text.
Theorem C118_exact_text_public : forall (printable : N -> bool) (k : pubkey) (t : bytes),
  pub_texts k -> (dbg_pubkey printable k = t <-> pub_text printable k t).
Proof.
  intros p k t H. split; [intros <-; apply pub_is_shown, H|]. intros K. exact (only_pub p k _ _ (pub_is_shown p k H) K).
Qed.
Print Assumptions C118_exact_text_public.
Theorem C118_exact_text_generated : forall (printable : N -> bool) (k : fido_key) (t : bytes),
  priv_texts (fk_private k) -> (dbg_fido_key printable k = t <-> fido_text printable k t).
Proof.
  intros p k t H. split; [intros <-; apply fido_is_shown, H|]. intros K. exact (only_fido p k _ _ (fido_is_shown p k H) K).
Qed.
Print Assumptions C118_exact_text_generated.

(** Nothing of a key is left out or blurred: equal debugging texts belong to equal keys. *)
Theorem C118_text_determines_key : forall (printable : N -> bool) (j k : privkey),
  priv_texts j -> priv_texts k -> dbg_privkey printable j = dbg_privkey printable k -> j = k.
Proof. intros p j k J K. apply (code_privkey p j k J K). Qed.
Print Assumptions C118_text_determines_key.
Theorem C118_text_determines_generated : forall (printable : N -> bool) (j k : fido_key),
  priv_texts (fk_private j) -> priv_texts (fk_private k) ->
  dbg_fido_key printable j = dbg_fido_key printable k -> j = k.
Proof. intros p j k J K. apply (code_fido_key p j k J K). Qed.
Print Assumptions C118_text_determines_generated.
Theorem C118_text_determines_public : forall (printable : N -> bool) (j k : pubkey),
  pub_texts j -> pub_texts k -> dbg_pubkey printable j = dbg_pubkey printable k -> j = k.
Proof. intros p j k J K. apply (code_pubkey p j k J K). Qed.
Print Assumptions C118_text_determines_public.

(** The secrets stand in the text, under their names, byte by byte. *)
Theorem C118_secrets_shown : forall (printable : N -> bool) (k : privkey) (name secret : bytes),
  In (name, secret) (secret_numbers (sk_kind k)) -> shows (dbg_privkey printable k) name secret.
Proof.
  intros p k n v H. apply shown_within. eapply within_trans; [exact (secret_within p _ _ _ H)|apply kind_within].
Qed.
Print Assumptions C118_secrets_shown.
Theorem C118_generated_shown : forall (printable : N -> bool) (k : fido_key) (name secret : bytes),
  In (name, secret) (secret_numbers (sk_kind (fk_private k))) -> shows (dbg_fido_key printable k) name secret.
Proof.
  intros p k n v H. apply shown_within.
  eapply within_trans; [exact (secret_within p _ _ _ H)|]. eapply within_trans; [apply kind_within|apply key_within].
Qed.
Print Assumptions C118_generated_shown.

(** So does the PIN, if it was set. *)
Theorem C118_pin_shown : forall (printable : N -> bool) (k : privkey) (pin : bytes),
  pin_of (sk_kind k) = Some pin -> plain_ascii pin ->
  exists before after, dbg_privkey printable k = before ++ s2b "pin: Some(" ++ [x22] ++ pin ++ [x22] ++ s2b ")" ++ after.
Proof.
  intros p k pin H A. destruct (within_trans _ _ _ (pin_within p _ _ H) (kind_within p k)) as (a & b & E).
  exists a, b. rewrite E. unfold dbg_str, quote. rewrite (plain_body p pin A).
  change (x22 :: pin ++ [x22]) with ([x22] ++ pin ++ [x22]). rewrite <- !app_assoc. reflexivity.
Qed.
Print Assumptions C118_pin_shown.

(** In contrast to Display (C93), where they have no part. *)
Theorem C118_redacted_refuted : exists (F : features) (K : keyops) (C : crypto) (text : bytes) (k : privkey) (a b s : bytes),
  sk_from_string F K text None = Ok k
  /\ privkey_display C (set_pin a k) = Ok s /\ privkey_display C (set_pin b k) = Ok s
  /\ dbg_privkey (fun _ => true) (set_pin a k) <> dbg_privkey (fun _ => true) (set_pin b k).
Proof.
  destruct (sk_write ex_hw) as [text| |] eqn:E; [|vm_compute in E; discriminate|vm_compute in E; discriminate].
  exists ex_features, ex_ops, lax_crypto, text, ex_hw, (s2b "1234"), (s2b "5678"). eexists.
  split; [vm_compute in E; injection E as <-; vm_compute; reflexivity|]. split; [vm_compute; reflexivity|].
  split; [vm_compute; reflexivity|]. intros H. vm_compute in H. discriminate H.
Qed.
Print Assumptions C118_redacted_refuted.

(** A hardware key with a PIN in which characters need escapes; a number; a plain PIN. *)
Definition ex_pinned : privkey := set_pin (s2b "a" ++ [x22; x0a; xc3; xa9; x7f]) ex_hw.
Example C118_case : exists before after,
  dbg_privkey (fun c => negb (c =? 233)%N) ex_pinned
  = before ++ s2b "reserved: [], pin: Some(" ++ [x22] ++ s2b "a" ++ [x5c; x22; x5c; x6e; x5c] ++ s2b "u{e9}" ++ [x5c] ++ s2b "u{7f}" ++ [x22] ++ s2b "), device_path: None })" ++ after
  /\ priv_texts ex_pinned.
Proof.
  eexists (firstn 300 (dbg_privkey (fun c => negb (c =? 233)%N) ex_pinned)),
    (skipn 366 (dbg_privkey (fun c => negb (c =? 233)%N) ex_pinned)).
  split; [vm_compute; reflexivity|].
  destruct (sk_write ex_hw) as [text| |] eqn:E; [|vm_compute in E; discriminate|vm_compute in E; discriminate].
  apply (C118_read_keys ex_features ex_ops text None ex_hw _ []);
    [vm_compute in E; injection E as <-; vm_compute; reflexivity|apply utf8_valid_iff; reflexivity|constructor].
Qed.
Example C118_case_numbers : dbg_vec [x00; xff; x0a] = s2b "[0, 255, 10]" /\ secret_numbers (sk_kind ex_rsa) <> []
  /\ plain_ascii (s2b "1234 5678!").
Proof. split; [reflexivity|]. split; [discriminate|]. repeat constructor; cbn; try lia; discriminate. Qed.

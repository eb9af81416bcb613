(** Facts about the debugging output of certificates, entries and signatures. *)
From Coq Require Import Permutation.
From Verif Require Import Base BaseFacts Str KeyType PubKeyType PrivKey Cert AllowedSigner Signature Generate Debug DebugMore SpecWire
  SpecSigner SpecDebug SpecDebugMore Utf8Facts StrFacts CutFacts FileFacts FidoFacts ShowFacts DebugFacts.

(** ** Lists *)
Definition list_rest {A} (f : A -> bytes) (l : list A) : bytes := concat (map (fun y => s2b ", " ++ y) (map f l)).
Lemma list_rest_stop {A} (f : A -> bytes) l r : stop (list_rest f l ++ s2b "]" ++ r).
Proof. destruct l as [|b l]; [apply stop_bracket|]. unfold list_rest. cbn [map concat]. rewrite <- !app_assoc. apply stop_comma. Qed.
Lemma list_rest_cut {A} (P : A -> Prop) f : code P f -> forall l m r s, Forall P l -> Forall P m ->
  list_rest f l ++ s2b "]" ++ r = list_rest f m ++ s2b "]" ++ s -> l = m /\ r = s.
Proof.
  intros C. induction l as [|b l IH]; intros [|c m] r s L M E.
  - do 2 apply app_inv_head in E. auto.
  - discriminate E.
  - discriminate E.
  - apply Forall_cons_iff in L as [Lb L]. apply Forall_cons_iff in M as [Mc M].
    unfold list_rest in E. cbn [map concat] in E. rewrite <- !app_assoc in E. apply app_inv_head in E.
    apply (code_cut _ _ _ _ _ _ C) in E as [-> E]; auto; try apply (list_rest_stop f). apply IH in E as [-> ->]; auto.
Qed.
Lemma dbg_list_cons {A} (f : A -> bytes) b l : dbg_list f (b :: l) = s2b "[" ++ f b ++ list_rest f l ++ s2b "]".
Proof. unfold dbg_list. cbn [map]. rewrite join_more, <- app_assoc. reflexivity. Qed.
Lemma code_list {A} (P : A -> Prop) f : code P f -> (forall a r s, f a ++ r <> s2b "]" ++ s) -> code (Forall P) (dbg_list f).
Proof.
  intros C N. apply code_intro. intros [|a l] [|b m] r s L M R S E; rewrite ?dbg_list_cons in E; change (dbg_list f []) with (s2b "[" ++ s2b "]") in E;
    rewrite <- !app_assoc in E; apply app_inv_head in E.
  - apply app_inv_head in E. auto.
  - exfalso. symmetry in E. exact (N _ _ _ E).
  - exfalso. exact (N _ _ _ E).
  - apply Forall_cons_iff in L as [Lb L]. apply Forall_cons_iff in M as [Mc M].
    apply (code_cut _ _ _ _ _ _ C) in E as [-> E]; auto; try apply list_rest_stop.
    apply (list_rest_cut _ _ C) in E as [-> ->]; auto.
Qed.
Lemma code_strs p : code (Forall utf8_text) (dbg_list (dbg_str p)).
Proof. apply code_list; [apply code_str|]. intros a r s E. discriminate E. Qed.

(** ** Maps *)
Lemma str_cut p a b r s : utf8_text a -> utf8_text b -> dbg_str p a ++ r = dbg_str p b ++ s -> a = b /\ r = s.
Proof.
  intros A B E. unfold dbg_str in E. cbn [app] in E. injection E as E. rewrite <- !app_assoc in E. cbn [app] in E.
  apply (body_cut p a A b r s B) in E. exact E.
Qed.
Definition dbg_pair (p : N -> bool) (e : bytes * bytes) : bytes := dbg_str p (fst e) ++ s2b ": " ++ dbg_str p (snd e).
Lemma pair_cut p a b r s : utf8_text (fst a) /\ utf8_text (snd a) -> utf8_text (fst b) /\ utf8_text (snd b) ->
  dbg_pair p a ++ r = dbg_pair p b ++ s -> a = b /\ r = s.
Proof.
  intros [A1 A2] [B1 B2] E. unfold dbg_pair in E. rewrite <- !app_assoc in E. apply str_cut in E as [E1 E]; auto.
  apply app_inv_head in E. apply str_cut in E as [E2 ->]; auto. destruct a, b; cbn in *; subst; auto.
Qed.
Definition map_rest p m : bytes := concat (map (fun y => s2b ", " ++ y) (map (dbg_pair p) m)).
Lemma map_rest_cut p l : forall m r s, pair_texts l -> pair_texts m ->
  map_rest p l ++ s2b "}" ++ r = map_rest p m ++ s2b "}" ++ s -> l = m /\ r = s.
Proof.
  induction l as [|b l IH]; intros [|c m] r s L M E.
  - do 2 apply app_inv_head in E. auto.
  - discriminate E.
  - discriminate E.
  - apply Forall_cons_iff in L as [Lb L]. apply Forall_cons_iff in M as [Mc M].
    unfold map_rest in E. cbn [map concat] in E. rewrite <- !app_assoc in E. apply app_inv_head in E.
    apply pair_cut in E as [-> E]; auto. apply IH in E as [-> ->]; auto.
Qed.
Lemma dbg_map_cons p b l : dbg_map p (b :: l) = s2b "{" ++ dbg_pair p b ++ map_rest p l ++ s2b "}".
Proof. unfold dbg_map. cbn [map]. rewrite join_more, <- app_assoc. reflexivity. Qed.
Lemma code_map p : code pair_texts (dbg_map p).
Proof.
  apply code_intro. intros [|a l] [|b m] r s L M _ _ E; rewrite ?dbg_map_cons in E; change (dbg_map p []) with (s2b "{" ++ s2b "}") in E;
    rewrite <- !app_assoc in E; apply app_inv_head in E.
  - apply app_inv_head in E. auto.
  - discriminate E.
  - discriminate E.
  - apply Forall_cons_iff in L as [Lb L]. apply Forall_cons_iff in M as [Mc M].
    apply pair_cut in E as [-> E]; auto. apply map_rest_cut in E as [-> ->]; auto.
Qed.

(** ** Entries *)
Lemma code_namespaces p : code (fun o => forall l, o = Some l -> Forall utf8_text l) (dbg_option (dbg_list (dbg_str p))).
Proof. exact (code_option _ _ (code_strs p)). Qed.
Lemma code_bound : code any (dbg_option display_z).
Proof. intros a b _ _. apply (code_option _ _ code_display_z); intros; exact I. Qed.
Lemma code_signer p : code entry_texts (dbg_signer p).
Proof.
  apply code_intro. intros [a1 a2 a3 a4 a5 a6] [b1 b2 b3 b4 b5 b6] r s (A1 & A2 & A3) (B1 & B2 & B3) _ _ E. unfold dbg_signer in E.
  cbn [as_principals as_cert_authority as_namespaces as_valid_after as_valid_before as_key] in *. fields E.
  - cbn [map snd] in E. take (code_strs p) E. take code_bool E. take (code_namespaces p) E. take code_bound E. take code_bound E.
    take (code_pubkey p) E. subst. auto.
  - by_code (code_strs p).
  - by_code code_bool.
  - by_code (code_namespaces p).
  - by_code code_bound.
  - by_code code_bound.
  - by_code (code_pubkey p).
Qed.
Lemma code_entries p : code (Forall entry_texts) (dbg_list (dbg_signer p)).
Proof. apply code_list; [apply code_signer|]. intros a r s E. discriminate E. Qed.

(** ** Signatures *)
Lemma code_hash : code any dbg_hash.
Proof. apply code_intro. intros [|] [|] r s _ _ _ _ E; try discriminate E; apply app_inv_head in E; auto. Qed.
Lemma code_sshsig p : code signature_texts (dbg_sshsig p).
Proof.
  apply code_intro. intros [a1 a2 a3 a4] [b1 b2 b3 b4] r s (A1 & A2) (B1 & B2) _ _ E. unfold dbg_sshsig in E.
  cbn [ss_pubkey ss_namespace ss_hash ss_signature] in *. fields E.
  - cbn [map snd] in E. take (code_pubkey p) E. take (code_str p) E. take code_hash E. take code_vec E. subst. auto.
  - by_code (code_pubkey p).
  - by_code (code_str p).
  - by_code code_hash.
  - by_code code_vec.
Qed.
Lemma code_verified p : code (fun v => signature_texts (vs_signature v)) (dbg_verified p).
Proof.
  apply code_intro. intros [a1 a2] [b1 b2] r s A B _ _ E. unfold dbg_verified in E. cbn [vs_signature vs_message] in *. fields E.
  - cbn [map snd] in E. take (code_sshsig p) E. take code_vec E. subst. auto.
  - by_code (code_sshsig p).
  - by_code code_vec.
Qed.

(** ** Certificates *)
Lemma code_cert_type : code any dbg_cert_type.
Proof. apply code_intro. intros [|] [|] r s _ _ _ _ E; try discriminate E; apply app_inv_head in E; auto. Qed.
Definition ordered (c : cert) (co ex : hashmap) : cert :=
  mkCert (ct_key_type c) (ct_nonce c) (ct_key c) (ct_serial c) (ct_cert_type c) (ct_key_id c) (ct_principals c) (ct_valid_after c)
    (ct_valid_before c) co ex (ct_reserved c) (ct_signature_key c) (ct_signature c) (ct_comment c) (ct_serialized c).
Definition id_order (m : hashmap) : hashmap := m.
Lemma dbg_cert_ordered p io ie c : dbg_cert p io ie c = dbg_cert p id_order id_order (ordered c (io (ct_critical_options c)) (ie (ct_extensions c))).
Proof. reflexivity. Qed.
Lemma code_cert p : code cert_texts (dbg_cert p id_order id_order).
Proof.
  apply code_intro. intros [a1 a2 a3 a4 a5 a6 a7 a8 a9 a10 a11 a12 a13 a14 a15 a16] [b1 b2 b3 b4 b5 b6 b7 b8 b9 b10 b11 b12 b13 b14 b15 b16] r s
    (A1 & A2 & A3 & A4 & A5 & A6 & A7 & A8) (B1 & B2 & B3 & B4 & B5 & B6 & B7 & B8) _ _ E. unfold dbg_cert, id_order in E.
  cbn [ct_key_type ct_nonce ct_key ct_serial ct_cert_type ct_key_id ct_principals ct_valid_after ct_valid_before ct_critical_options
    ct_extensions ct_reserved ct_signature_key ct_signature ct_comment ct_serialized] in *. fields E.
  - cbn [map snd] in E. take (code_key_type p) E. take code_vec E. take (code_pubkey p) E. take code_decimal E. take code_cert_type E.
    take (code_str p) E. take (code_strs p) E. take code_decimal E. take code_decimal E. take (code_map p) E. take (code_map p) E.
    take code_vec E. take (code_pubkey p) E. take code_vec E. take (code_text_option p) E. take code_vec E. subst. auto.
  - by_code (code_key_type p).
  - by_code code_vec.
  - by_code (code_pubkey p).
  - by_code code_decimal.
  - by_code code_cert_type.
  - by_code (code_str p).
  - by_code (code_strs p).
  - by_code code_decimal.
  - by_code code_decimal.
  - by_code (code_map p).
  - by_code (code_map p).
  - by_code code_vec.
  - by_code (code_pubkey p).
  - by_code code_vec.
  - by_code (code_text_option p).
  - by_code code_vec.
Qed.

(** ** The exact texts *)
Lemma separated_join l : separated l = join (s2b ", ") l.
Proof. induction l as [|x [|y l] IH]; [reflexivity|reflexivity|]. change (x ++ s2b ", " ++ separated (y :: l) = x ++ s2b ", " ++ join (s2b ", ") (y :: l)). rewrite IH. reflexivity. Qed.
Lemma list_is_shown {A} (P : A -> Prop) (R : A -> bytes -> Prop) f l : (forall a, P a -> R a (f a)) -> Forall P l -> in_list R l (dbg_list f l).
Proof.
  intros H L. exists (map f l). split; [|rewrite separated_join; reflexivity].
  induction L; constructor; auto.
Qed.
Lemma optional_is_shown {A} (P : A -> Prop) (R : A -> bytes -> Prop) f o :
  (forall s, P s -> R s (f s)) -> (forall s, o = Some s -> P s) -> optional R o (dbg_option f o).
Proof. intros H T. destruct o as [s|]; [|reflexivity]. exists (f s). split; [auto|reflexivity]. Qed.
Lemma strs_are_shown p l : Forall utf8_text l -> in_list (quoted p) l (dbg_list (dbg_str p) l).
Proof. apply list_is_shown. apply str_is_quoted. Qed.
Lemma pairs_are_shown p o : pair_texts o -> Forall2 (pair_text p) o (map (dbg_pair p) o).
Proof. induction 1 as [|e o [H1 H2] _ IH]; constructor; [|exact IH]. eexists _, _. split; [apply str_is_quoted, H1|]. split; [apply str_is_quoted, H2|reflexivity]. Qed.
Lemma map_is_shown p o m : Permutation o m -> pair_texts m -> map_text p m (dbg_map p o).
Proof.
  intros Q H. exists o, (map (dbg_pair p) o). split; [exact Q|]. split; [|rewrite separated_join; reflexivity].
  apply pairs_are_shown. eapply Permutation_Forall; [apply Permutation_sym, Q|exact H].
Qed.
Lemma signer_is_shown p a : entry_texts a -> entry_text p a (dbg_signer p a).
Proof.
  intros (A & B & C). exists (dbg_list (dbg_str p) (as_principals a)), (dbg_bool (as_cert_authority a)),
    (dbg_option (dbg_list (dbg_str p)) (as_namespaces a)), (dbg_option display_z (as_valid_after a)),
    (dbg_option display_z (as_valid_before a)), (dbg_pubkey p (as_key a)).
  split; [apply strs_are_shown, A|]. split; [apply bool_is_shown|].
  split; [apply (optional_is_shown (Forall utf8_text)); [apply strs_are_shown|exact B]|].
  split; [apply (optional_is_shown any); [intros z _; apply display_z_decimal|intros; exact I]|].
  split; [apply (optional_is_shown any); [intros z _; apply display_z_decimal|intros; exact I]|].
  split; [apply pub_is_shown, C|layout].
Qed.
Lemma signers_are_shown p l : Forall entry_texts l -> entries_text p l (dbg_signers p l).
Proof. intros H. eexists. split; [apply (list_is_shown entry_texts _ (dbg_signer p)); [apply signer_is_shown|exact H]|layout]. Qed.
Lemma sshsig_is_shown p g : signature_texts g -> signature_text p g (dbg_sshsig p g).
Proof.
  intros (A & B). exists (dbg_pubkey p (ss_pubkey g)), (dbg_str p (ss_namespace g)), (dbg_hash (ss_hash g)), (dbg_vec (ss_signature g)).
  split; [apply pub_is_shown, A|]. split; [apply str_is_quoted, B|]. split; [destruct (ss_hash g); reflexivity|]. split; [apply vec_listed|layout].
Qed.
Lemma verified_is_shown p v : signature_texts (vs_signature v) -> verified_text p v (dbg_verified p v).
Proof. intros A. eexists _, _. split; [apply sshsig_is_shown, A|]. split; [apply vec_listed|layout]. Qed.
Lemma cert_is_shown p io ie c : (forall m, Permutation (io m) m) -> (forall m, Permutation (ie m) m) -> cert_texts c ->
  cert_text p c (dbg_cert p io ie c).
Proof.
  intros O E (A1 & A2 & A3 & A4 & A5 & A6 & A7 & A8).
  exists (dbg_key_type p (ct_key_type c)), (dbg_vec (ct_nonce c)), (dbg_pubkey p (ct_key c)), (decimal (ct_serial c)),
    (dbg_cert_type (ct_cert_type c)), (dbg_str p (ct_key_id c)), (dbg_list (dbg_str p) (ct_principals c)), (decimal (ct_valid_after c)),
    (decimal (ct_valid_before c)), (dbg_map p (io (ct_critical_options c))), (dbg_map p (ie (ct_extensions c))), (dbg_vec (ct_reserved c)),
    (dbg_pubkey p (ct_signature_key c)), (dbg_vec (ct_signature c)), (dbg_option (dbg_str p) (ct_comment c)), (dbg_vec (ct_serialized c)).
  split; [apply type_is_shown, A1|]. split; [apply vec_listed|]. split; [apply pub_is_shown, A2|]. split; [apply decimal_n|].
  split; [destruct (ct_cert_type c); reflexivity|]. split; [apply str_is_quoted, A3|]. split; [apply strs_are_shown, A4|].
  split; [apply decimal_n|]. split; [apply decimal_n|]. split; [apply map_is_shown; auto|]. split; [apply map_is_shown; auto|].
  split; [apply vec_listed|]. split; [apply pub_is_shown, A7|]. split; [apply vec_listed|]. split; [apply text_is_shown, A8|].
  split; [apply vec_listed|layout].
Qed.

Lemma only_forall {A} (R : A -> bytes -> Prop) : only R -> forall l t u, Forall2 R l t -> Forall2 R l u -> t = u.
Proof.
  intros H l t u F. revert u. induction F as [|a x l t Hx F IH]; intros u G; inversion G as [|? y ? u' Hy G']; subst; [reflexivity|].
  f_equal; [exact (H _ _ _ Hx Hy)|apply IH, G'].
Qed.
Lemma only_list {A} (R : A -> bytes -> Prop) : only R -> only (in_list R).
Proof. intros H l t u (ts & F & ->) (us & G & ->). rewrite (only_forall R H l ts us F G). reflexivity. Qed.
Lemma only_optional {A} (R : A -> bytes -> Prop) : only R -> only (optional R).
Proof. intros H [a|] t u; cbn [optional]; [|congruence]. intros (x & X & ->) (y & Y & ->). rewrite (H _ _ _ X Y). reflexivity. Qed.
Lemma only_strs p : only (in_list (quoted p)). Proof. apply only_list, only_quoted. Qed.
Lemma only_entry p : only (entry_text p).
Proof.
  intros a t u. unfold entry_text. same_parts p. same (only_strs p). same (only_optional _ (only_strs p)). same (only_optional _ only_decimal).
  same (only_pub p). reflexivity.
Qed.
Lemma only_entries p : only (entries_text p).
Proof. intros a t u. unfold entries_text. intros; parts. same (only_list _ (only_entry p)). reflexivity. Qed.
Lemma only_hash : only hash_text. Proof. intros [|] t u; cbn [hash_text]; congruence. Qed.
Lemma only_signature p : only (signature_text p).
Proof. intros a t u. unfold signature_text. same_parts p. same only_hash. same (only_pub p). reflexivity. Qed.
Lemma only_verified p : only (verified_text p).
Proof. intros a t u. unfold verified_text. same_parts p. same (only_signature p). reflexivity. Qed.
Lemma only_pair p : only (pair_text p).
Proof. intros a t u. unfold pair_text. same_parts p. Qed.

(** Facts about file signatures. *)
From Verif Require Import Base BaseFacts Utf8 Utf8Facts Str StrFacts SpecWire SpecText SpecBase64
  SpecKeys SpecSig SpecSshSig Base64 Base64Facts Reader ReaderFacts LocalFacts KeyType KeyTypeFacts
  PubKeyType Writer WriterFacts WireFacts Crypto PubKey PubKeyFacts Signature SignatureFacts TbsFacts.

Lemma opt_bytes_eqb_eq a b : opt_bytes_eqb a b = true <-> a = b.
Proof.
  destruct a, b; cbn; rewrite ?bytes_eqb_eq; split; intros H; try congruence; injection H; auto.
Qed.
Lemma pubkey_kind_eqb_eq a b : pubkey_kind_eqb a b = true <-> a = b.
Proof.
  destruct a, b; cbn; rewrite ?andb_true_iff, ?bytes_eqb_eq, ?opt_bytes_eqb_eq, ?curve_eqb_eq;
    split; intros H; try discriminate; try (decompose [and] H; subst; reflexivity);
    injection H; intros; subst; auto.
Qed.
Lemma pubkey_eqb_eq a b : pubkey_eqb a b = true <-> a = b.
Proof.
  unfold pubkey_eqb. rewrite !andb_true_iff, key_type_eqb_eq, pubkey_kind_eqb_eq, opt_bytes_eqb_eq.
  destruct a, b; cbn. split; [intros [[-> ->] ->]; reflexivity|intros H; injection H; auto].
Qed.

Lemma hash_name_iff h n : hash_name h n <-> n = hash_alg_name h.
Proof. split; [destruct 1; reflexivity|intros ->; destruct h; constructor]. Qed.
Lemma digest_of_iff C m h d : digest_of C m h d <-> d = hash_digest C h m.
Proof. split; [destruct 1; reflexivity|intros ->; destruct h; constructor]. Qed.
Lemma hash_name_fits h : fits (hash_alg_name h).
Proof. destruct h; unfold fits; cbn; lia. Qed.
Lemma hash_name_utf8 h : utf8_valid (hash_alg_name h) = true.
Proof. destruct h; reflexivity. Qed.
Lemma hash_name_inj a b : hash_alg_name a = hash_alg_name b -> a = b.
Proof. destruct a, b; intros H; auto; discriminate. Qed.

(** The payload. *)
Lemma signed_format_enc C s m : fits (ss_namespace s) -> fits (hash_digest C (ss_hash s) m) ->
  to_signed_format C s m = sshsig_magic ++ enc_bytes (ss_namespace s) ++ enc_bytes []
    ++ enc_bytes (hash_alg_name (ss_hash s)) ++ enc_bytes (hash_digest C (ss_hash s) m).
Proof.
  intros H1 H2. unfold to_signed_format.
  rewrite (write_bytes_enc (hash_digest C (ss_hash s) m)) by exact H2.
  rewrite (write_string_enc (hash_alg_name (ss_hash s))) by apply hash_name_fits.
  rewrite (write_bytes_enc []) by (unfold fits; cbn; lia).
  rewrite (write_string_enc (ss_namespace s)) by exact H1.
  change (write_raw_bytes sshsig_magic writer_new) with sshsig_magic. rewrite <- !app_assoc. reflexivity.
Qed.
Lemma digests_fit_enc C h m : digests_fit C -> fits (hash_digest C h m).
Proof. intros H. apply field_ok_fits. apply (H m h). apply digest_of_iff. reflexivity. Qed.
Lemma payload_iff C s m p : field_ok (ss_namespace s) -> digests_fit C ->
  payload C (ss_namespace s) (ss_hash s) m p <-> p = to_signed_format C s m.
Proof.
  intros H1 H2. rewrite field_ok_fits in H1. rewrite signed_format_enc; [|exact H1|apply digests_fit_enc, H2].
  unfold payload. split.
  - intros (n & d & Hn & Hd & ->). apply hash_name_iff in Hn. apply digest_of_iff in Hd. subst.
    rewrite !field_enc. reflexivity.
  - intros ->. exists (hash_alg_name (ss_hash s)), (hash_digest C (ss_hash s) m).
    rewrite hash_name_iff, digest_of_iff, !field_enc. auto.
Qed.

(** ** The blob *)
Definition sig_ok (s : sshsig) (inner reserved : bytes) : Prop :=
  pk_from_bytes inner = Ok (ss_pubkey s) /\ fits inner
  /\ (fits (ss_namespace s) /\ utf8_valid (ss_namespace s) = true) /\ ss_namespace s <> []
  /\ (fits reserved /\ utf8_valid reserved = true) /\ fits (ss_signature s).
Definition enc_sig (s : sshsig) (inner reserved : bytes) : bytes :=
  sshsig_magic ++ to_be 4 1 ++ enc_bytes inner ++ enc_bytes (ss_namespace s) ++ enc_bytes reserved
  ++ enc_bytes (hash_alg_name (ss_hash s)) ++ enc_bytes (ss_signature s).

Lemma sshsig_data_iff s bs : sshsig_data s bs <->
  exists inner reserved, sig_ok s inner reserved /\ bs = enc_sig s inner reserved.
Proof.
  unfold sshsig_data, sig_ok, enc_sig. split.
  - intros (kd & post & rv & n & H1 & H2 & H3 & H4 & H5 & H6 & H7 & H8 & H9 & H10 & H11 & ->).
    apply hash_name_iff in H10. subst n. rewrite field_ok_fits in *. apply utf8_valid_iff in H5, H8.
    apply key_data_iff in H3. destruct H3 as [H3 ->]. apply kt_from_name_ok in H1. destruct H1 as [H1 _].
    exists (enc_key (ss_pubkey s) ++ post), rv. unfold enc_key. rewrite <- app_assoc, <- field_enc.
    rewrite !field_enc, be32_to_be. split; [|reflexivity]. rewrite field_enc in H4. repeat split; auto.
    apply pk_from_bytes_iff. split; [repeat split; assumption|]. exists post. unfold enc_key. rewrite <- app_assoc. reflexivity.
  - intros (inner & rv & (H1 & H2 & [H3 H4] & H5 & [H6 H7] & H8) & ->).
    apply pk_from_bytes_iff in H1. destruct H1 as [(K1 & K2 & K3) (post & ->)].
    exists (enc_kind (pk_kind (ss_pubkey s))), post, rv, (hash_alg_name (ss_hash s)).
    rewrite hash_name_iff, !field_enc, be32_to_be, !field_ok_fits, <- !utf8_valid_iff.
    unfold enc_key in *. rewrite <- !app_assoc in *.
    split; [apply known_name_ok, K1|]. split; [exact K2|]. split; [apply key_data_iff; auto|]. repeat split; auto.
Qed.

Lemma hash_lookup h x : (if bytes_eqb h (s2b "sha256") then Ok HSha256
   else if bytes_eqb h (s2b "sha512") then Ok HSha512 else Err EUnsupported) = Ok x <-> h = hash_alg_name x.
Proof.
  destruct (bytes_eqb h (s2b "sha256")) eqn:E; [|destruct (bytes_eqb h (s2b "sha512")) eqn:F].
  - apply bytes_eqb_eq in E. subst h. split; [intros H; injection H as <-; reflexivity|].
    intros H. destruct x; [reflexivity|discriminate].
  - apply bytes_eqb_eq in F. subst h. split; [intros H; injection H as <-; reflexivity|].
    intros H. destruct x; [discriminate|reflexivity].
  - split; [discriminate|]. intros ->. destruct x; discriminate.
Qed.

Lemma local_sig_tail k ns : local (match ns with
  | [] => throw EInvalidFormat
  | _ =>
    do! _reserved <- read_string;
    do! h <- read_string;
    do! hash <- lift (if bytes_eqb h (s2b "sha256") then Ok HSha256
                      else if bytes_eqb h (s2b "sha512") then Ok HSha512
                      else Err EUnsupported);
    do! signature <- read_bytes;
    ret (mkSshSig k ns hash signature)
  end).
Proof. destruct ns; local_tac. Qed.

Ltac sig_local := local_tac; apply local_sig_tail.

Lemma sig_run_iff data s : run sshsig_from_reader data = Ok s <->
  exists inner reserved post, sig_ok s inner reserved /\ data = enc_sig s inner reserved ++ post.
Proof.
  split.
  - intros H. unfold sshsig_from_reader in H.
    apply inv_raw in H; [|lia|sig_local]. destruct H as (pre & d1 & _ & -> & H).
    destruct (bytes_eqb pre sshsig_magic) eqn:Em; [|discriminate]. apply bytes_eqb_eq in Em. subst pre. cbn [negb] in H.
    apply inv_u32 in H; [|sig_local]. destruct H as (v & d2 & _ & -> & H).
    destruct (v =? 1)%N eqn:Ev; [|discriminate]. apply N.eqb_eq in Ev. subst v. cbn [negb] in H.
    apply inv_bytes in H; [|sig_local]. destruct H as (inner & d3 & Hi & -> & H).
    apply run_lift_inv in H. destruct H as (k & Hk & H).
    apply inv_string in H; [|sig_local]. destruct H as (ns & d4 & Hn & Hu & -> & H).
    destruct ns as [|n0 ns']; [discriminate|].
    apply inv_string in H; [|local_tac]. destruct H as (rv & d5 & Hr & Hru & -> & H).
    apply inv_string in H; [|local_tac]. destruct H as (h & d6 & _ & _ & -> & H).
    apply run_lift_inv in H. destruct H as (hash & Hh & H). apply hash_lookup in Hh. subst h.
    apply inv_bytes in H; [|local_tac]. destruct H as (sg & d7 & Hs & -> & H).
    cbn in H. injection H as <-. exists inner, rv, d7. unfold sig_ok, enc_sig.
    cbn [ss_pubkey ss_namespace ss_hash ss_signature]. split; [|rewrite <- !app_assoc; reflexivity].
    repeat split; auto. discriminate.
  - intros (inner & rv & post & (H1 & H2 & [H3 H4] & H5 & [H6 H7] & H8) & ->). unfold enc_sig.
    rewrite <- !app_assoc. unfold sshsig_from_reader.
    rewrite step_raw by (try reflexivity; try lia; sig_local). rewrite bytes_eqb_refl. cbn [negb].
    rewrite step_u32 by (try lia; sig_local). cbn [N.eqb Pos.eqb negb].
    rewrite step_bytes by (try assumption; sig_local). rewrite (run_lift _ _ _ _ H1).
    rewrite step_string by (try assumption; sig_local).
    destruct s as [k ns h sg]. cbn [ss_pubkey ss_namespace ss_hash ss_signature] in *.
    destruct ns as [|n0 ns']; [congruence|].
    rewrite step_string by (try assumption; local_tac).
    rewrite step_string by (try apply hash_name_fits; try apply hash_name_utf8; local_tac).
    erewrite run_lift by (apply hash_lookup; reflexivity).
    rewrite step_bytes by (try assumption; local_tac). apply run_ret.
Qed.

Lemma nopanic_sig : nopanic sshsig_from_reader.
Proof.
  unfold sshsig_from_reader.
  apply nopanic_bind; [apply nopanic_read_raw|intros pre]. destruct (negb _); [apply nopanic_throw|].
  apply nopanic_bind; [apply nopanic_read_u32|intros v]. destruct (negb _); [apply nopanic_throw|].
  apply nopanic_bind; [apply nopanic_read_bytes|intros].
  apply nopanic_bind.
  { apply nopanic_lift. unfold pk_from_bytes. apply nopanic_run.
    apply nopanic_bind; [apply nopanic_read_string|intros; apply nopanic_pk_from_reader]. }
  intros. apply nopanic_bind; [apply nopanic_read_string|intros ns]. destruct ns; [apply nopanic_throw|].
  apply nopanic_bind; [apply nopanic_read_string|intros]. apply nopanic_bind; [apply nopanic_read_string|intros].
  apply nopanic_bind.
  { apply nopanic_lift. destruct (bytes_eqb _ _); [discriminate|]. destruct (bytes_eqb _ _); discriminate. }
  intros. apply nopanic_bind; [apply nopanic_read_bytes|intros]. apply nopanic_ret.
Qed.

(** ** The armor *)
Lemma armor_body_iff e ls : forall acc out, armor_body e ls acc = Ok out <->
  exists body rest, ls = body ++ e :: rest /\ ~ In e body /\ out = acc ++ concat body.
Proof.
  induction ls as [|p ls IH]; intros acc out; cbn [armor_body].
  - split; [discriminate|]. intros (body & rest & H & _). destruct body; discriminate.
  - destruct (bytes_eqb p e) eqn:E.
    + apply bytes_eqb_eq in E. subst p. split.
      * intros H. apply ok_inj in H. subst out. exists [], ls. cbn [concat]. rewrite app_nil_r. auto.
      * intros (body & rest & H1 & H2 & ->). destruct body as [|b body].
        -- cbn [concat]. rewrite app_nil_r. reflexivity.
        -- exfalso. cbn [app] in H1. injection H1 as <- _. apply H2. left. reflexivity.
    + apply bytes_eqb_neq in E. rewrite IH. split.
      * intros (body & rest & -> & H2 & ->). exists (p :: body), rest. cbn [concat app].
        split; [reflexivity|]. split; [|symmetry; apply app_assoc]. intros [<-|Hi]; auto.
      * intros (body & rest & H1 & H2 & ->). destruct body as [|b body].
        -- exfalso. cbn [app] in H1. injection H1 as -> _. auto.
        -- cbn [app] in H1. injection H1 as <- ->. exists body, rest. cbn [concat]. split; [reflexivity|].
           split; [intros Hi; apply H2; right; exact Hi|apply app_assoc].
Qed.
Lemma armor_body_err e ls acc : ~ In e ls -> armor_body e ls acc = Err EInvalidFormat.
Proof.
  revert acc. induction ls as [|p ls IH]; intros acc Hn; cbn [armor_body]; [reflexivity|].
  destruct (bytes_eqb p e) eqn:E.
  - apply bytes_eqb_eq in E. exfalso. apply Hn. left. auto.
  - apply IH. intros Hi. apply Hn. right. exact Hi.
Qed.
Lemma armor_body_cases e ls acc : (exists out, armor_body e ls acc = Ok out) \/ armor_body e ls acc = Err EInvalidFormat.
Proof.
  revert acc. induction ls as [|p ls IH]; intros acc; cbn [armor_body]; [auto|].
  destruct (bytes_eqb p e); eauto.
Qed.

Definition armor_decode (begin_l end_l text : bytes) : res bytes :=
  let ls := lines text in
  let header := match ls with h :: _ => h | [] => [] end in
  if negb (bytes_eqb header begin_l) then Err EInvalidFormat else
  do? encoded <- armor_body end_l (tl ls) [];
  ok_or (b64_decode encoded) EDecode.

Lemma armor_decode_iff b e text data : b <> [] ->
  armor_decode b e text = Ok data <->
  exists body rest k, lines_of text (b :: body ++ e :: rest) /\ ~ In e body
    /\ base64_text data (concat body ++ repeat x3d k).
Proof.
  intros Hb. unfold armor_decode. split.
  - intros H. destruct (lines text) as [|h ls] eqn:El.
    { rewrite (proj2 (bytes_eqb_neq [] b)) in H by congruence. discriminate. }
    destruct (bytes_eqb h b) eqn:Eh; [|discriminate]. cbn [negb tl] in H. apply bytes_eqb_eq in Eh. subst h.
    apply bind_ok in H. destruct H as (enc & He & H). apply armor_body_iff in He.
    destruct He as (body & rest & -> & Hn & ->). cbn [app] in H.
    destruct (b64_decode (concat body)) as [d|] eqn:Ed; [|discriminate]. cbn in H. apply ok_inj in H. subst d.
    apply b64_decode_iff in Ed. destruct Ed as (k & Hk). exists body, rest, k. rewrite <- lines_iff. auto.
  - intros (body & rest & k & Hl & Hn & Hk). apply lines_iff in Hl. rewrite Hl. rewrite bytes_eqb_refl. cbn [negb tl].
    rewrite (proj2 (armor_body_iff e (body ++ e :: rest) [] (concat body))) by eauto. cbn [bind].
    rewrite (proj2 (b64_decode_iff (concat body) data)) by eauto. reflexivity.
Qed.
Lemma armored_decode text : sshsig_from_armored_string text =
  do? d <- armor_decode sig_begin sig_end text; run sshsig_from_reader d.
Proof.
  unfold sshsig_from_armored_string, armor_decode. cbn zeta. destruct (negb _); [reflexivity|].
  destruct (armor_body _ _ _) as [x|e|]; reflexivity.
Qed.
Lemma armor_decode_not_panic b e text : armor_decode b e text <> Panic.
Proof.
  unfold armor_decode. cbn zeta. destruct (negb _); [discriminate|].
  destruct (armor_body_cases e (tl (lines text)) []) as [[o ->]| ->]; cbn [bind]; [|discriminate].
  destruct (b64_decode o); discriminate.
Qed.

(** ** Printing *)
Lemma chunks_filled n l : 0 < n -> l <> [] -> filled n (chunks n l) /\ concat (chunks n l) = l.
Proof.
  intros Hn. unfold chunks. assert (H : length l <= length l) by lia. revert H.
  generalize (length l) at 2 3 4 as fuel. intros fuel. revert l.
  induction fuel as [|fuel IH]; intros l Hf Hl.
  { destruct l; [congruence|cbn in Hf; lia]. }
  cbn [chunks_aux]. destruct l as [|b l']; [congruence|]. set (l := b :: l') in *.
  destruct (Nat.le_gt_cases (length l) n) as [Hs|Hs].
  - rewrite firstn_all2, skipn_all2 by exact Hs. assert (E : chunks_aux fuel n [] = []) by (destruct fuel; reflexivity).
    rewrite E. split; [constructor; [discriminate|exact Hs]|]. cbn [concat]. apply app_nil_r.
  - destruct (IH (skipn n l)) as [H1 H2].
    + rewrite skipn_length. lia.
    + intros E. apply (f_equal (@length _)) in E. rewrite skipn_length in E. cbn [length] in E. lia.
    + split; [constructor; [rewrite firstn_length; lia|exact H1]|]. cbn [concat]. rewrite H2. apply firstn_skipn.
Qed.
Lemma filled_parts n ls : filled n ls -> ls <> [] /\ (0 < n -> Forall (fun l => l <> [] /\ length l <= n) ls).
Proof.
  induction 1 as [l H1 H2|l ls H1 H2 IH]; (split; [discriminate|]); intros Hn.
  - constructor; [auto|constructor].
  - constructor; [|apply IH, Hn]. split; [intros ->; cbn in H1; lia|lia].
Qed.

(** Lines without control characters joined by newlines. *)
Definition plain_line (l : bytes) : Prop := l <> [] /\ ~ In x0a l /\ ~ In x0d l.
Lemma plain_no_cr l : plain_line l -> forall l', l <> l' ++ [x0d].
Proof. intros (_ & _ & H) l' ->. apply H. apply in_or_app. right. left. reflexivity. Qed.
Lemma lines_of_join ls e : Forall plain_line ls -> plain_line e -> ls <> [] ->
  lines_of (join [newline] ls ++ [newline] ++ e) (ls ++ [e]).
Proof.
  intros Hl He. induction Hl as [|l ls H1 H2 IH]; [congruence|]. intros _. cbn [join]. destruct ls as [|l2 ls].
  - cbn [app]. apply (L_lf l e [e]); [apply H1|apply plain_no_cr, H1|]. apply L_last; apply He.
  - rewrite <- app_assoc. cbn [app]. apply L_lf; [apply H1|apply plain_no_cr, H1|]. apply IH. discriminate.
Qed.
Lemma graphic_plain l : l <> [] -> forallb graphic l = true -> plain_line l.
Proof.
  intros H G. rewrite forallb_forall in G. split; [exact H|].
  split; intros Hi; apply G in Hi; discriminate.
Qed.
Lemma concat_in {A} (x : A) (l : list A) ls : In l ls -> In x l -> In x (concat ls).
Proof. intros H1 H2. apply in_concat. eauto. Qed.
Lemma b64_char_alnum v : (v < 64)%N -> b64_char v <> x2d.
Proof.
  intros H E. assert (X := b64_val_char v H). rewrite E in X. vm_compute in X. discriminate.
Qed.
Lemma b64_encode_no_dash b : ~ In x2d (b64_encode b).
Proof.
  rewrite b64_encode_core. intros H. apply in_app_or in H. destruct H as [H|H].
  - pose proof (b64_core_chars b) as F. rewrite Forall_forall in F. apply F in H. destruct H as (v & Hv & E).
    symmetry in E. exact (b64_char_alnum v Hv E).
  - apply repeat_spec in H. discriminate.
Qed.

(** Printed armor reads back. *)
Lemma armor_print_lines b e n blob : 0 < n -> blob <> [] -> plain_line b -> plain_line e ->
  let body := chunks n (b64_encode blob) in
  lines_of (b ++ [newline] ++ join [newline] body ++ [newline] ++ e) (b :: body ++ [e])
  /\ filled n body /\ concat body = b64_encode blob.
Proof.
  intros Hn Hb Pb Pe body.
  assert (Hne : b64_encode blob <> []).
  { intros E. apply Hb. assert (X := b64_decode_encode blob). rewrite E in X. cbn in X. congruence. }
  destruct (chunks_filled n (b64_encode blob) Hn Hne) as [Hf Hc]. fold body in Hf, Hc.
  split; [|auto]. apply L_lf; [apply Pb|apply plain_no_cr, Pb|].
  apply lines_of_join; [|exact Pe|apply (filled_parts _ _ Hf)].
  apply Forall_forall. intros l Hl. destruct (filled_parts _ _ Hf) as [_ Hp]. specialize (Hp Hn).
  rewrite Forall_forall in Hp. apply graphic_plain; [apply (Hp l Hl)|].
  pose proof (b64_encode_graphic blob) as G. rewrite forallb_forall in *. intros x Hx. apply G.
  rewrite <- Hc. eapply concat_in; eassumption.
Qed.
Lemma dash_not_in e n blob : hd x00 e = x2d -> e <> [] -> concat (chunks n (b64_encode blob)) = b64_encode blob ->
  ~ In e (chunks n (b64_encode blob)).
Proof.
  intros Hd He Hc Hi. destruct e as [|x e]; [congruence|]. cbn in Hd. subst x.
  apply (b64_encode_no_dash blob). rewrite <- Hc. eapply concat_in; [exact Hi|left; reflexivity].
Qed.
Lemma armor_print_decode b e n blob : 0 < n -> blob <> [] -> plain_line b -> plain_line e -> hd x00 e = x2d ->
  armor_decode b e (b ++ [newline] ++ join [newline] (chunks n (b64_encode blob)) ++ [newline] ++ e) = Ok blob.
Proof.
  intros Hn Hb Pb Pe Hd. apply armor_decode_iff; [apply Pb|].
  destruct (armor_print_lines b e n blob Hn Hb Pb Pe) as (H1 & H2 & H3).
  eexists _, [], 0. split; [exact H1|]. split; [apply dash_not_in; [exact Hd|apply Pe|exact H3]|].
  rewrite H3. cbn [repeat]. rewrite app_nil_r. apply b64_encode_text.
Qed.

Lemma sshsig_blob_enc s : known (pk_type (ss_pubkey s)) ->
  kind_ok (pk_type (ss_pubkey s)) (canon (pk_kind (ss_pubkey s))) ->
  fits (enc_bytes (kt_name (pk_type (ss_pubkey s))) ++ enc_kind (canon (pk_kind (ss_pubkey s)))) ->
  fits (ss_namespace s) -> fits (ss_signature s) ->
  sshsig_blob s = Ok (enc_sig s (enc_bytes (kt_name (pk_type (ss_pubkey s))) ++ enc_kind (canon (pk_kind (ss_pubkey s)))) []).
Proof.
  intros H1 H2 H3 H4 H5. unfold sshsig_blob, write_pub_key. cbn zeta.
  rewrite (write_pub_key_data_kind _ _ H2). cbn [bind].
  rewrite (write_string_enc (kt_name (pk_type (ss_pubkey s)))) by (apply known_fits, H1).
  change (writer_new ++ ?x) with x. rewrite (write_bytes_enc _ _ H3).
  rewrite (write_bytes_enc (ss_signature s)) by exact H5.
  rewrite (write_string_enc (hash_alg_name _)) by apply hash_name_fits.
  rewrite (write_bytes_enc []) by (unfold fits; cbn; lia).
  rewrite (write_string_enc (ss_namespace s)) by exact H4. unfold enc_sig, write_u32, write_raw_bytes, writer_new.
  cbn [app]. f_equal. rewrite <- !app_assoc. reflexivity.
Qed.

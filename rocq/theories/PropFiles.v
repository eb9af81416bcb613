(** Properties C100-C102 (files that are not complete). *)
From Coq Require Import Lia.
From Verif Require Import Base BaseFacts SpecWire SpecText SpecBase64 SpecKeys Utf8 Utf8Facts Base64 Base64Facts Str StrFacts
  KeyType KeyTypeFacts PubKeyType PubKey PubKeyFacts PropPubKey Crypto Signature SpecSshSig SshSigFacts Cert CertFacts TbsFacts PropCertText
  SpecPrivKey PrivKey PrivKeyFacts PropPrivKey Chrono AllowedSigner SpecSigner PropSigner SpecFiles Files CutFacts CutSignerFacts Reader ReaderFacts PropCert PropSshSig.

(** ** Written texts *)
Lemma join_in (x : byte) (l : list bytes) : In x (join [newline] l) -> x = newline \/ In x (concat l).
Proof.
  induction l as [|a l IH]; [auto|]. destruct l as [|b l]; [cbn [join concat]; rewrite app_nil_r; auto|].
  change (join [newline] (a :: b :: l)) with (a ++ [newline] ++ join [newline] (b :: l)). intros H. cbn [concat].
  apply in_app_or in H. destruct H as [H|H]; [right; apply in_or_app; auto|]. cbn [app] in H. destruct H as [H|H]; [auto|].
  destruct (IH H) as [E|E]; [auto|]. right. apply in_or_app. right. exact E.
Qed.
Lemma graphic_ascii b : graphic b = true -> (b2n b < 128)%N.
Proof. destruct b; intros H; try reflexivity; discriminate. Qed.
Lemma b64_encode_ascii d : Forall (fun b => (b2n b < 128)%N) (b64_encode d).
Proof. apply Forall_forall. intros x Hx. apply graphic_ascii. pose proof (b64_encode_graphic d) as G. rewrite forallb_forall in G. auto. Qed.
Lemma ascii_check l : forallb (fun b => (b2n b <? 128)%N) l = true -> Forall (fun b => (b2n b < 128)%N) l.
Proof. intros H. apply Forall_forall. rewrite forallb_forall in H. intros x Hx. apply N.ltb_lt, H, Hx. Qed.
Lemma read_ascii l : Forall (fun b => (b2n b < 128)%N) l -> read_to_string (Some l) = Ok l.
Proof. intros H. unfold read_to_string. apply utf8_text_ascii, utf8_valid_iff in H. rewrite H. reflexivity. Qed.
Lemma read_file f c : read_to_string f = Ok c <-> f = Some c /\ utf8_text c.
Proof.
  unfold read_to_string. destruct f as [b|]; [|split; [discriminate|intros [E _]; discriminate]].
  destruct (utf8_valid b) eqn:E; split.
  - intros H. apply ok_inj in H. subst c. split; [reflexivity|apply utf8_valid_iff, E].
  - intros [H _]. congruence.
  - discriminate.
  - intros [H Hu]. apply some_inj in H. subst b. apply utf8_valid_iff in Hu. congruence.
Qed.
Lemma read_file_some b c : read_to_string (Some b) = Ok c -> c = b /\ utf8_text b.
Proof. intros H. apply read_file in H. destruct H as [H Hu]. apply some_inj in H. subst. auto. Qed.
Lemma write_fmt_room room text : write_fmt room text = (if length text <=? room then Ok tt else Err EIo, firstn room text).
Proof.
  unfold write_fmt. destruct (length text <=? room) eqn:E; [|reflexivity]. apply Nat.leb_le in E. rewrite firstn_all2 by exact E. reflexivity.
Qed.
Lemma sk_write_ascii k text : sk_write k = Ok text -> Forall (fun b => (b2n b < 128)%N) text.
Proof.
  intros H. apply sk_write_lines in H. destruct H as (blob & body & _ & _ & _ & _ & Hc & ->).
  apply Forall_app. split; [apply ascii_check; reflexivity|]. apply Forall_app. split; [apply ascii_check; reflexivity|].
  apply Forall_app. split; [|apply ascii_check; reflexivity].
  apply Forall_forall. intros x Hx. apply join_in in Hx. destruct Hx as [-> |Hx]; [reflexivity|]. rewrite Hc in Hx.
  pose proof (b64_encode_ascii blob) as G. rewrite Forall_forall in G. auto.
Qed.
Lemma not_in_check (x : byte) l : existsb (byte_eqb x) l = false -> ~ In x l.
Proof. intros H Hi. rewrite <- not_true_iff_false in H. apply H. apply existsb_exists. exists x. split; [exact Hi|apply byte_eqb_refl]. Qed.
Lemma not_beginning_check (a b : bytes) : bytes_eqb (firstn (length a) b) a = false -> ~ beginning a b.
Proof.
  intros H (r & ->). rewrite firstn_app, firstn_all, Nat.sub_diag in H. cbn [firstn] in H. rewrite app_nil_r, bytes_eqb_refl in H. discriminate.
Qed.

(** ** C100 *)
(** A private key that was only written in part is not accepted; the final newline does not
    matter. *)
Theorem C100_private_key_file : forall (F : features) (K : keyops) (k k' : privkey),
  storable F k' -> kept k k' ->
  exists text, sk_write k = Ok text /\ forall (room : nat) (pass : option bytes),
    (fst (sk_write_to room k) = Ok tt <-> length text <= room)
    /\ (length text <= S room -> sk_from_path_with_passphrase F K (Some (snd (sk_write_to room k))) pass = Ok k')
    /\ (S room < length text -> sk_from_path_with_passphrase F K (Some (snd (sk_write_to room k))) pass = Err EInvalidFormat).
Proof.
  intros F K k k' Hs Hk. destruct (C53_text_round_trip F K None k k' Hs Hk) as (text & Hw & _). exists text. split; [exact Hw|].
  intros room pass. destruct (C53_text_round_trip F K pass k k' Hs Hk) as (text' & Hw' & Hr). rewrite Hw in Hw'. apply ok_inj in Hw'. subst text'.
  pose proof (sk_write_ascii k text Hw) as Ha. unfold sk_write_to, write_out. rewrite Hw, write_fmt_room. cbn [fst snd].
  unfold sk_from_path_with_passphrase. rewrite read_ascii by (apply Forall_forall; intros x Hx; rewrite Forall_forall in Ha; apply Ha;
    rewrite <- (firstn_skipn room text); apply in_or_app; auto). cbn [bind].
  split; [|split].
  - destruct (length text <=? room) eqn:E; [apply Nat.leb_le in E|apply Nat.leb_gt in E]; split; [auto|reflexivity|discriminate|lia].
  - intros Hl. rewrite <- Hr. rewrite !sk_from_string_decode. f_equal.
    apply sk_write_lines in Hw. destruct Hw as (blob & body & Hb & _ & Hls & _ & Hc & Et).
    destruct (le_lt_dec (length text) room) as [L|L]; [rewrite firstn_all2 by exact L; reflexivity|].
    assert (Ef : firstn room text = key_begin ++ [newline] ++ join [newline] body ++ [newline] ++ key_end).
    { set (front := key_begin ++ [newline] ++ join [newline] body ++ [newline] ++ key_end) in *.
      assert (E2 : text = front ++ [newline]) by (unfold front; rewrite Et, <- !app_assoc; reflexivity).
      assert (E3 : length text = length front + 1) by (rewrite E2, app_length; reflexivity).
      assert (E4 : room = length front) by lia. rewrite E2, E4, firstn_app, firstn_all, Nat.sub_diag. cbn [firstn]. apply app_nil_r. }
    rewrite Ef. unfold armor_decode. replace (lines (key_begin ++ [newline] ++ join [newline] body ++ [newline] ++ key_end)) with (lines text); [reflexivity|].
    rewrite Et. unfold lines.
    assert (G : forall s cur, lines_aux (s ++ [newline] ++ key_end ++ [newline]) cur = lines_aux (s ++ [newline] ++ key_end) cur).
    { induction s as [|x s IH]; intros cur; cbn [app lines_aux].
      - change (byte_eqb newline newline) with true. cbv iota. f_equal.
      - destruct (byte_eqb x newline); [f_equal|]; apply IH. }
    specialize (G (key_begin ++ [newline] ++ join [newline] body) []). rewrite <- !app_assoc in G. exact G.
  - intros Hl. rewrite sk_from_string_decode. apply sk_write_lines in Hw. destruct Hw as (blob & body & Hb & _ & Hls & _ & Hc & Et).
    rewrite (armor_unfinished key_begin (join [newline] body) key_end [newline]); [reflexivity| | | | | | | |].
    + apply not_in_check. reflexivity.
    + intros Hi. apply join_in in Hi. destruct Hi as [Hi|Hi]; [discriminate|]. rewrite Hc in Hi. exact (b64_encode_no_dash blob Hi).
    + apply not_in_check. reflexivity.
    + apply not_beginning_check. reflexivity.
    + vm_compute. lia.
    + reflexivity.
    + rewrite <- Et. apply beginning_firstn.
    + rewrite firstn_length. rewrite Et in Hl |- *. rewrite !app_length in *. cbn [length] in *. lia.
Qed.
Print Assumptions C100_private_key_file.

Lemma split_newline t : utf8_text t -> forall cur, split_ws_aux (t ++ [newline]) 0 cur = split_ws_aux t 0 cur.
Proof.
  induction 1 as [|c bs l Hc Hl IH]; intros cur; [reflexivity|]. rewrite <- app_assoc.
  destruct (ws_len_char c bs [] Hc) as [[Hw _]|[Hw _]].
  - rewrite !(split_ws_char_ws c bs) by assumption. rewrite IH. reflexivity.
  - rewrite !(split_ws_char_no c bs) by assumption. apply IH.
Qed.
Lemma pk_from_string_newline t : utf8_text t -> pk_from_string (t ++ [newline]) = pk_from_string t.
Proof. intros H. unfold pk_from_string, split_whitespace. rewrite (split_newline t H). reflexivity. Qed.
Lemma pk_write_display k : pk_write k = do? t <- pk_display k; Ok (t ++ [newline]).
Proof.
  unfold pk_write, pk_display. destruct (pk_encode k); [|reflexivity..]. cbn [bind].
  destruct (pk_comment k); cbn [bind]; rewrite <- !app_assoc; reflexivity.
Qed.

(** A public key file is the printed key with a newline. What is read back from one that was
    written in part is that key, if anything; only the comment may be cut. *)
Theorem C100_public_key_file : forall (k : pubkey) (kind : pubkey_kind) (data : bytes) (comment' : option bytes),
  supported (pk_type k) -> kt_plain (pk_type k) = kt_name (pk_type k) ->
  same_material (pk_kind k) kind -> key_data (pk_type k) kind data ->
  match pk_comment k with
  | Some c => exists ws, words_of c ws /\ comment' = hd_error ws
  | None => comment' = None
  end ->
  exists shown text, pk_display k = Ok shown /\ text = shown ++ [x0a] /\ pk_write k = Ok text /\ forall (room : nat),
    let file := snd (pk_write_to room k) in
    (fst (pk_write_to room k) = Ok tt <-> length text <= room)
    /\ (length text <= room -> pk_from_path (Some file) = Ok (mkPubKey (pk_type k) kind comment'))
    /\ match pk_from_path (Some file) with
       | Ok k' => key_cut k' (mkPubKey (pk_type k) kind comment')
       | Err _ => room < length text
       | Panic => False
       end.
Proof.
  intros k kind data cm Hs Hp Hm Hd Hc. destruct (C23_text_round_trip k kind data cm Hs Hm Hd Hc) as (t & Ht & Hr).
  rewrite Hp, bytes_eqb_refl in Hr.
  assert (Hu : utf8_text t).
  { unfold pk_display in Ht. apply bind_ok in Ht. destruct Ht as (e & He & Ht). apply supported_known in Hs.
    assert (A : utf8_text (kt_name (pk_type k))) by (apply utf8_valid_iff, (known_utf8 _ Hs)).
    assert (B : utf8_text (b64_encode e)) by apply utf8_text_ascii, b64_encode_ascii.
    assert (S : utf8_text [space]) by (apply utf8_text_ascii; constructor; [reflexivity|constructor]).
    destruct (pk_comment k) as [c|]; apply ok_inj in Ht; subst t; repeat (apply utf8_text_app; try assumption).
    destruct Hc as (ws & Hc & _). eapply words_of_utf8, Hc. }
  exists t, (t ++ [newline]). rewrite pk_write_display, Ht. cbn [bind]. split; [reflexivity|]. split; [reflexivity|]. split; [reflexivity|]. intros room. cbv zeta.
  unfold pk_write_to, write_out. rewrite pk_write_display, Ht. cbn [bind]. rewrite write_fmt_room. cbn [fst snd].
  assert (Hu2 : utf8_text (t ++ [newline])) by (apply utf8_text_app; [exact Hu|apply utf8_text_ascii; constructor; [reflexivity|constructor]]).
  assert (Full : pk_from_path (Some (t ++ [newline])) = Ok (mkPubKey (pk_type k) kind cm)).
  { unfold pk_from_path, read_to_string. apply utf8_valid_iff in Hu2. rewrite Hu2. cbn [bind]. rewrite pk_from_string_newline by exact Hu. exact Hr. }
  split; [|split].
  - destruct (length (t ++ [newline]) <=? room) eqn:E; [apply Nat.leb_le in E|apply Nat.leb_gt in E]; split; [auto|reflexivity|discriminate|lia].
  - intros L. rewrite firstn_all2 by exact L. exact Full.
  - match goal with |- match ?x with _ => _ end => destruct x as [k'|e|] eqn:E end.
    + unfold pk_from_path in E. apply bind_ok in E. destruct E as (c & Ec & E). apply read_file_some in Ec. destruct Ec as [-> Ef].
      eapply pk_from_string_cut; [exact Ef|apply beginning_firstn|exact E|]. rewrite pk_from_string_newline by exact Hu. exact Hr.
    + destruct (le_lt_dec (length (t ++ [newline])) room) as [L|L]; [|exact L]. rewrite firstn_all2 in E by exact L.
      exfalso. assert (X : Ok (mkPubKey (pk_type k) kind cm) = Err e) by (rewrite <- Full; exact E). discriminate.
    + unfold pk_from_path, read_to_string in E. destruct (utf8_valid _); [|discriminate]. apply (nopanic_pk_from_string _ E).
Qed.
Print Assumptions C100_public_key_file.

(** A public key file that was cut off may be accepted. *)
Definition ex_commented : pubkey := mkPubKey PropPubKey.ex_ed (PkEd25519 (repeat x07 32) None) (Some (s2b "me@home")).
Theorem C100_partial_write_noticed_refuted : exists k room k',
  fst (pk_write_to room k) = Err EIo /\ pk_from_path (Some (snd (pk_write_to room k))) = Ok k' /\ pk_comment k' <> pk_comment k.
Proof.
  exists ex_commented, 82, (mkPubKey PropPubKey.ex_ed (PkEd25519 (repeat x07 32) None) (Some (s2b "m"))).
  split; [vm_compute; reflexivity|]. split; [vm_compute; reflexivity|discriminate].
Qed.
Print Assumptions C100_partial_write_noticed_refuted.

Example C100_case_private : storable PropPrivKey.ex_features PropPrivKey.ex_ed /\ kept PropPrivKey.ex_ed PropPrivKey.ex_ed
  /\ match sk_write PropPrivKey.ex_ed with
     | Ok text => length text = 399
     | _ => False
     end
  /\ sk_from_path PropPrivKey.ex_features PropPrivKey.ex_ops (Some (snd (sk_write_to 398 PropPrivKey.ex_ed))) = Ok PropPrivKey.ex_ed
  /\ sk_from_path PropPrivKey.ex_features PropPrivKey.ex_ops (Some (snd (sk_write_to 397 PropPrivKey.ex_ed))) = Err EInvalidFormat.
Proof. split; [apply ex_ed_storable|]. split; [repeat split|]. vm_compute. auto. Qed.
Example C100_case_public : exists data,
  supported (pk_type ex_commented) /\ key_data (pk_type ex_commented) (pk_kind ex_commented) data
  /\ words_of (s2b "me@home") [s2b "me@home"]
  /\ pk_from_path (Some (snd (pk_write_to 40 ex_commented))) = Err EInvalidFormat.
Proof.
  exists (enc_kind (PkEd25519 (repeat x07 32) None)). split; [reflexivity|].
  split; [apply kd_intro; cbn; unfold fits; cbn; repeat split; lia|].
  split; [apply split_whitespace_iff; [apply utf8_valid_iff; reflexivity|reflexivity]|]. vm_compute. reflexivity.
Qed.

(** ** C101 *)
Theorem C101_cut_public_key : forall (p t : bytes) (k' k : pubkey), beginning p t ->
  pk_from_path (Some p) = Ok k' -> pk_from_path (Some t) = Ok k -> key_cut k' k.
Proof.
  intros p t k' k Hb E' E. unfold pk_from_path in *. apply bind_ok in E', E. destruct E' as (x' & F' & E'), E as (x & Fx & E).
  apply read_file_some in F', Fx. destruct F' as [-> U'], Fx as [-> _]. eapply pk_from_string_cut; eassumption.
Qed.
Print Assumptions C101_cut_public_key.

Theorem C101_cut_certificate : forall (C : crypto) (p t : bytes) (c' c : cert), beginning p t ->
  cert_from_path C (Some p) = Ok c' -> cert_from_path C (Some t) = Ok c -> cert_cut c' c.
Proof.
  intros C p t c' c Hb E' E. unfold cert_from_path in *. apply bind_ok in E', E. destruct E' as (x' & F' & E'), E as (x & Fx & E).
  apply read_file_some in F', Fx. destruct F' as [-> U'], Fx as [-> U].
  apply (C44_accepts_exactly C p c' U') in E'. apply (C44_accepts_exactly C t c U) in E.
  destruct E' as (l' & b' & ws' & lt' & d' & c0' & W' & _ & D' & B' & _ & ->), E as (l & b & ws & lt & d & c0 & W & _ & D & B & _ & ->).
  apply words_of_split in W', W. apply cut_whitespace in Hb; [|exact U']. rewrite W', W in Hb.
  inversion Hb as [| |x a bb Hb2]; subst.
  assert (Q : beginning b' b /\ comment_cut (hd_error ws') (hd_error ws)).
  { inversion Hb2; subst; cbn [hd_error comment_cut]; auto using beginning_refl, hd_error_cut. }
  destruct Q as [Q Qc]. pose proof (b64_decode_cut _ _ _ _ Q D' D) as Z. pose proof Z as (z & ->).
  destruct (C43_kept_verbatim C d' c0' B') as [S' A]. rewrite A in B. apply ok_inj in B. subst c0.
  unfold cert_cut. cbn. rewrite S'. repeat (split; [reflexivity|]). split; [exact Qc|exact Z].
Qed.
Print Assumptions C101_cut_certificate.

(** Armored texts are read the same or not at all. *)
Theorem C101_cut_private_key : forall (F : features) (K : keyops) (p t : bytes) (pass : option bytes) (k : privkey), beginning p t ->
  sk_from_string F K t pass = Ok k -> sk_from_string F K p pass = Ok k \/ sk_from_string F K p pass = Err EInvalidFormat.
Proof.
  intros F K p t pass k Hb E. rewrite sk_from_string_decode in *. apply bind_ok in E. destruct E as (d & Hd & E).
  destruct (armor_cut key_begin key_end p t d) as [A|A]; [left; reflexivity|apply not_in_check; reflexivity|exact Hb|exact Hd|left|right];
    rewrite A; [exact E|reflexivity].
Qed.
Print Assumptions C101_cut_private_key.
Theorem C101_cut_signature : forall (p t : bytes) (s : sshsig), beginning p t ->
  sshsig_from_armored_string t = Ok s -> sshsig_from_armored_string p = Ok s \/ sshsig_from_armored_string p = Err EInvalidFormat.
Proof.
  assert (G : forall t, sshsig_from_armored_string t = do? d <- armor_decode sig_begin sig_end t; run sshsig_from_reader d).
  { intros t. unfold sshsig_from_armored_string, armor_decode. cbv zeta. destruct (negb _); [reflexivity|]. destruct (armor_body _ _ _); reflexivity. }
  intros p t s Hb E. rewrite G in *. apply bind_ok in E. destruct E as (d & Hd & E).
  destruct (armor_cut sig_begin sig_end p t d) as [A|A]; [left; reflexivity|apply not_in_check; reflexivity|exact Hb|exact Hd|left|right];
    rewrite A; [exact E|reflexivity].
Qed.
Print Assumptions C101_cut_signature.

(** ** C102 *)
Theorem C102_cut_signers : forall (tz : timezone) (p t : bytes) (l' l : list allowed_signer), beginning p t ->
  signers_from_path tz (Some p) = Ok l' -> signers_from_path tz (Some t) = Ok l -> signers_cut l' l.
Proof.
  intros tz p t l' l Hb E' E. unfold signers_from_path in *. apply bind_ok in E', E. destruct E' as (x' & F' & E'), E as (x & Fx & E).
  apply read_file_some in F', Fx. destruct F' as [-> U'], Fx as [-> U]. exact (signers_from_string_cut tz p t l' l U' U Hb E' E).
Qed.
Print Assumptions C102_cut_signers.
Theorem C102_cut_entry : forall (tz : timezone) (p t : bytes) (a' a : allowed_signer), utf8_text p -> beginning p t ->
  as_from_string tz p = Ok a' -> as_from_string tz t = Ok a -> signer_cut a' a.
Proof. exact as_from_string_cut. Qed.
Print Assumptions C102_cut_entry.

Definition ex_cert_text : bytes := s2b "ssh-ed25519-cert-v01@openssh.com " ++ b64_encode (PropCert.ex_data ++ [x00; x00; x00]) ++ s2b " note".
Example C101_case : exists c' c, cert_from_path PropCert.lax_crypto (Some (firstn (length ex_cert_text - 9) ex_cert_text)) = Ok c'
  /\ cert_from_path PropCert.lax_crypto (Some ex_cert_text) = Ok c
  /\ ct_comment c = Some (s2b "note") /\ ct_comment c' = None /\ length (ct_serialized c') < length (ct_serialized c)
  /\ beginning (firstn (length ex_cert_text - 9) ex_cert_text) ex_cert_text.
Proof.
  do 2 eexists. split; [vm_compute; reflexivity|]. split; [vm_compute; reflexivity|]. split; [reflexivity|]. split; [reflexivity|].
  split; [vm_compute; lia|apply beginning_firstn].
Qed.
Example C101_case_armored : sshsig_from_armored_string (ex_armor ++ s2b "
") = Ok ex_ssig
  /\ sshsig_from_armored_string ex_armor = Ok ex_ssig
  /\ sshsig_from_armored_string (removelast ex_armor) = Err EInvalidFormat.
Proof. vm_compute. auto. Qed.

Definition ex_signers : bytes :=
  s2b "a cert-authority valid-before=20300101Z " ++ ex_key_text ++ nl ++ s2b "b " ++ ex_key_text ++ [x09] ++ s2b "work" ++ nl ++ s2b "c " ++ ex_key_text.
(** Cut behind a complete key, an entry may lose its comment, and later entries are lost. *)
Theorem C102_cut_noticed_refuted : exists tz p t l' l, beginning p t /\ p <> t
  /\ signers_from_path tz (Some p) = Ok l' /\ signers_from_path tz (Some t) = Ok l /\ length l' = 2 /\ length l = 3.
Proof.
  exists utc, (firstn 209 ex_signers), ex_signers. do 2 eexists. split; [apply beginning_firstn|]. split; [vm_compute; discriminate|].
  split; [vm_compute; reflexivity|]. split; [vm_compute; reflexivity|]. split; reflexivity.
Qed.
Print Assumptions C102_cut_noticed_refuted.
Example C102_case : exists l' l a' a, signers_from_path utc (Some (firstn 206 ex_signers)) = Ok l'
  /\ signers_from_path utc (Some ex_signers) = Ok l
  /\ nth_error l' 1 = Some a' /\ nth_error l 1 = Some a /\ pk_comment (as_key a') = Some (s2b "wo") /\ pk_comment (as_key a) = Some (s2b "work")
  /\ signers_from_path utc (Some (firstn 150 ex_signers)) = Err (EInvalidAllowedSigners ASInvalidKey 1).
Proof. do 4 eexists. repeat (split; [vm_compute; reflexivity|]). vm_compute. reflexivity. Qed.

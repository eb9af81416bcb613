(** Property C133: certificates printed one per line. *)
From Coq Require Import Permutation Lia.
From Verif Require Import Base BaseFacts Utf8 Utf8Facts Str StrFacts SpecWire SpecText SpecBase64 SpecKeys SpecSigner Base64 Base64Facts
  KeyType KeyTypeFacts PubKeyType Writer WriterFacts Crypto PubKey PubKeyFacts PropPubKey AllowedSigner Cert CertFacts SpecCert
  TbsFacts PropCert PropCertText PrivKey X509 SpecX509 PropX509 Show SpecShow ShowFacts PropShow Files Piv SpecTools Tools
  KindFacts PropInspect FileFacts PropFiles PropRewrite.

Lemma words_cr l : utf8_text l -> split_whitespace (l ++ [x0d]) = split_whitespace l.
Proof.
  intros H. pose proof (words_between l 13 [x0d] [] H) as E. cbn [List.app] in E. rewrite E; [|apply (Utf8_1 x0d); cbn; lia|unfold ws_scalar; lia].
  apply app_nil_r.
Qed.
Lemma read_cr C l : utf8_text l -> cert_from_string C (l ++ [x0d]) = cert_from_string C l.
Proof. intros H. unfold cert_from_string. rewrite words_cr by exact H. reflexivity. Qed.

Lemma cert_parts C data c : cert_from_bytes C data = Ok c -> known (ct_key_type c) /\ utf8_text (ct_key_id c).
Proof.
  intros H. split.
  - apply cert_from_bytes_iff in H. destruct H as (sp & post & Hc & _). destruct Hc as (? & ? & ? & ? & ? & Hkt & _). exact Hkt.
  - apply C35_valid_signature in H. destruct H as (sp & rest & _ & Hs & _).
    destruct Hs as (kd & pb & co & cb & ex & eb & skd & skpost & _ & _ & _ & _ & _ & _ & _ & _ & Hid & _). apply Hid.
Qed.
Lemma display_nl c : known (ct_key_type c) -> (no_nl (cert_display c) <-> no_nl (ct_key_id c)).
Proof.
  intros Kn. unfold cert_display. destruct (known_plain_text _ Kn) as [Kp _]. apply plain_no_nl in Kp.
  assert (B : no_nl (b64_encode (ct_serialized c))).
  { intros I. pose proof (b64_graphic (ct_serialized c)) as G. rewrite Forall_forall in G. specialize (G _ I). cbn in G. lia. }
  unfold no_nl in *. rewrite !in_app_iff. cbn [In]. intuition discriminate.
Qed.
Lemma display_text c : known (ct_key_type c) -> utf8_text (ct_key_id c) -> utf8_text (cert_display c).
Proof.
  intros Kn H. unfold cert_display.
  assert (Sp : utf8_text [space]) by (apply utf8_text_ascii; repeat constructor).
  apply utf8_text_app; [apply utf8_valid_iff, (known_utf8 _ Kn)|]. apply utf8_text_app; [exact Sp|].
  apply utf8_text_app; [apply utf8_text_ascii, b64_encode_ascii|]. apply utf8_text_app; [exact Sp|exact H].
Qed.
Lemma display_nonempty c : known (ct_key_type c) -> cert_display c <> [].
Proof. intros Kn E. unfold cert_display in E. apply app_eq_nil in E. destruct E as [_ E]. discriminate. Qed.

Lemma first_break a : forall b r t : bytes, no_nl a -> no_nl b -> a ++ x0a :: r = b ++ x0a :: t -> a = b /\ r = t.
Proof.
  unfold no_nl. induction a as [|x a IH]; intros [|y b] r t Ha Hb E; cbn [List.app] in E.
  - injection E as <-. auto.
  - injection E as <- _. exfalso. apply Hb. left. reflexivity.
  - injection E as -> _. exfalso. apply Ha. left. reflexivity.
  - injection E as <- E. destruct (IH b r t) as [-> ->]; auto; intros I; [apply Ha|apply Hb]; right; exact I.
Qed.
Lemma some_break a : forall f r u : bytes, no_nl a -> a ++ x0a :: r = f ++ x0a :: u ->
  (f = a /\ r = u) \/ exists f', f = a ++ x0a :: f' /\ r = f' ++ x0a :: u.
Proof.
  unfold no_nl. induction a as [|x a IH]; intros [|y f] r u Ha E; cbn [List.app] in E.
  - injection E as <-. auto.
  - injection E as <- ->. right. exists f. auto.
  - injection E as -> _. exfalso. apply Ha. left. reflexivity.
  - injection E as <- E. destruct (IH f r u) as [[-> ->]|(f' & -> & ->)]; auto; [intros I; apply Ha; right; exact I|]. right. exists f'. auto.
Qed.
(** As many lines as line breaks. *)
Definition breaks (s : bytes) : nat := length (filter (fun b => byte_eqb b x0a) s).
Lemma breaks_app a b : breaks (a ++ b) = breaks a + breaks b.
Proof. unfold breaks. rewrite filter_app, app_length. reflexivity. Qed.
Lemma breaks_none s : no_nl s <-> breaks s = 0.
Proof.
  unfold no_nl, breaks. induction s as [|b s IH]; cbn [filter In]; [tauto|]. destruct (byte_eqb b x0a) eqn:E.
  - apply byte_eqb_eq in E. subst. split; [intros H; exfalso; apply H; left; reflexivity|discriminate].
  - split.
    + intros H. apply IH. auto.
    + intros H [->|I]; [discriminate|]. apply IH in H. auto.
Qed.
Lemma breaks_lines s ls : lines_of s ls -> (s = [] \/ exists t, s = t ++ [x0a]) -> length ls = breaks s.
Proof.
  induction 1 as [|l Hl Hn|l rest ls Hl Hr IH|l rest ls Hl Hn Hr IH]; intros E.
  - reflexivity.
  - exfalso. destruct E as [E|(t & ->)]; [auto|]. apply Hl, in_app_iff. right. left. reflexivity.
  - assert (X : rest = [] \/ exists t, rest = t ++ [x0a]).
    { destruct rest as [|b rest _] using rev_ind; [auto|]. destruct E as [E|(t & E)]; [destruct l; discriminate|].
      right. change (l ++ x0d :: x0a :: rest ++ [b]) with (l ++ (x0d :: x0a :: rest) ++ [b]) in E. rewrite app_assoc in E. apply app_inj_tail in E.
      destruct E as [_ ->]. eauto. }
    rewrite breaks_app. apply breaks_none in Hl. rewrite Hl. cbn [length]. rewrite (IH X). reflexivity.
  - assert (X : rest = [] \/ exists t, rest = t ++ [x0a]).
    { destruct rest as [|b rest _] using rev_ind; [auto|]. destruct E as [E|(t & E)]; [destruct l; discriminate|].
      right. change (l ++ x0a :: rest ++ [b]) with (l ++ (x0a :: rest) ++ [b]) in E. rewrite app_assoc in E. apply app_inj_tail in E.
      destruct E as [_ ->]. eauto. }
    rewrite breaks_app. apply breaks_none in Hl. rewrite Hl. cbn [length]. rewrite (IH X). reflexivity.
Qed.
Lemma ended_end texts : ended_lines texts = [] \/ exists t, ended_lines texts = t ++ [x0a].
Proof.
  destruct texts as [|x texts _] using rev_ind; [left; reflexivity|]. right. unfold ended_lines. rewrite map_app, concat_app. cbn [map concat].
  exists (concat (map (fun l => l ++ [x0a]) texts) ++ x). rewrite app_nil_r, app_assoc. reflexivity.
Qed.
Lemma ended_breaks texts : breaks (ended_lines texts) = length texts + list_sum (map breaks texts).
Proof.
  induction texts as [|t texts IH]; [reflexivity|]. change (ended_lines (t :: texts)) with ((t ++ [x0a]) ++ ended_lines texts).
  rewrite !breaks_app, IH. cbn [map list_sum fold_right length]. change (breaks [x0a]) with 1. unfold list_sum. lia.
Qed.
Lemma sum_none l : list_sum l = 0 -> Forall (fun n => n = 0) l.
Proof. induction l as [|n l IH]; cbn; intros H; constructor; [lia|apply IH; unfold list_sum; lia]. Qed.

(** ** C133 *)
Definition read_as (C : crypto) (line : bytes) (c : cert) : Prop :=
  exists ws, words_of (ct_key_id c) ws /\ cert_from_string C line = Ok (with_comment c (hd_error ws)).
Lemma display_read C data c : cert_from_bytes C data = Ok c -> read_as C (cert_display c) c.
Proof. intros H. destruct (C42_key_id_words C data c H) as (ws & W). exists ws. split; [exact W|]. exact (C42_text_round_trip C data c ws H W). Qed.
(** Certificates printed one per line are read back line by line, each with the first word of its key id as
    comment, exactly if no key id contains a line break. *)
Theorem C133_read_line_by_line : forall (C : crypto) (l : list cert) (ls : list bytes),
  Forall (fun c => exists data, cert_from_bytes C data = Ok c) l -> lines_of (ended_lines (map cert_display l)) ls ->
  (Forall2 (read_as C) ls l <-> Forall (fun c => no_nl (ct_key_id c)) l).
Proof.
  intros C l ls A L. split.
  - intros F. apply forall2_length in F. pose proof (breaks_lines _ _ L (ended_end _)) as E. rewrite ended_breaks, map_length in E.
    assert (Z : list_sum (map breaks (map cert_display l)) = 0) by lia. apply sum_none in Z. clear -A Z.
    rewrite map_map in Z. apply Forall_forall. intros c Hc. rewrite Forall_forall in A, Z. destruct (A c Hc) as (data & Ha).
    apply (display_nl c (proj1 (cert_parts C data c Ha))), breaks_none. apply Z. apply in_map_iff. eauto.
  - intros N. assert (Nt : Forall no_nl (map cert_display l)).
    { apply Forall_map, Forall_forall. intros c Hc. rewrite Forall_forall in A, N. destruct (A c Hc) as (data & Ha).
      apply (display_nl c (proj1 (cert_parts C data c Ha))), N, Hc. }
    destruct (file_lines _ Nt) as (ls' & L' & F). assert (ls = ls') by (apply lines_of_lines in L; apply lines_of_lines in L'; change file_of with ended_lines in L'; congruence).
    subst ls'. clear L L'. revert ls F. induction l as [|c l IH]; intros ls F; inversion F as [|x y xs ys R F' Ex Ey]; subst; [constructor|].
    apply Forall_cons_iff in A. destruct A as [(data & Ha) A]. apply Forall_cons_iff in N. destruct N as [N1 N]. apply Forall_cons_iff in Nt. destruct Nt as [Nt1 Nt].
    constructor; [|apply IH; assumption]. pose proof (cert_parts C data c Ha) as [Kn Ut]. pose proof (display_read C data c Ha) as (ws & W & Rd).
    destruct R as [R|R]; [exists ws; rewrite <- R; auto|]. exists ws. split; [exact W|]. rewrite <- Rd, R. symmetry. apply read_cr.
    assert (Y : no_nl y) by (intros I; apply Nt1; rewrite R; apply in_app_iff; auto).
    pose proof (words_lines (y ++ [x0d; x0a]) [y] (L_crlf y [] [] Y L_end)) as Z.
    destruct Z as [_ Z]; [|apply Forall_cons_iff in Z; apply Z].
    change [x0d; x0a] with ([x0d] ++ [x0a]). rewrite app_assoc, <- R. apply utf8_text_app; [apply display_text; assumption|].
    apply utf8_text_ascii. constructor; [cbn; lia|constructor].
Qed.
Print Assumptions C133_read_line_by_line.

Lemma leading_all texts : Forall (fun t => t <> [] /\ no_nl t) texts -> leading_lines (ended_lines texts) texts.
Proof.
  induction 1 as [|t texts [H1 H2] _ IH]; [constructor|]. change (ended_lines (t :: texts)) with ((t ++ [x0a]) ++ ended_lines texts).
  rewrite <- app_assoc. constructor; assumption.
Qed.
Lemma about_each (P : N -> bytes -> bytes -> Prop) : forall ls texts, length texts = length ls ->
  (forall i l t, nth_error ls i = Some l -> nth_error texts i = Some t -> P (N.of_nat i) l t) ->
  Forall2 (fun l t => exists i, P i l t) ls texts.
Proof.
  intros ls texts. assert (G : forall j, length texts = length ls ->
    (forall i l t, nth_error ls i = Some l -> nth_error texts i = Some t -> P (N.of_nat (j + i)) l t) -> Forall2 (fun l t => exists i, P i l t) ls texts).
  { revert texts. induction ls as [|l ls IH]; intros [|t texts] j E H; try discriminate; [constructor|]. constructor; [exists (N.of_nat (j + 0)); apply (H 0); reflexivity|].
    apply (IH texts (S j)); [auto|]. intros i x y Hx Hy. replace (S j + i) with (j + S i) by lia. apply (H (S i)); assumption. }
  apply (G 0).
Qed.
Lemma printed_lines C l : Forall (fun c => exists data, cert_from_bytes C data = Ok c) l -> Forall (fun c => no_nl (ct_key_id c)) l ->
  leading_lines (ended_lines (map cert_display l)) (map cert_display l).
Proof.
  intros A N. apply leading_all, Forall_map, Forall_forall. intros c Hc. rewrite Forall_forall in A, N. destruct (A c Hc) as (data & Ha).
  pose proof (cert_parts C data c Ha) as [Kn _]. split; [apply display_nonempty, Kn|]. apply (display_nl c Kn), N, Hc.
Qed.
(** The programs show such a file as it is: ssh-cert-info the listings of the certificates, and
    ssh-pubkey-from-cert their keys, in order and nothing else. *)
Theorem C133_shown : forall (C : crypto) (iter : hashmap -> hashmap) (why : error -> bytes) (l : list cert),
  (forall m, Permutation (iter m) m) ->
  Forall (fun c => exists data, cert_from_bytes C data = Ok c) l -> Forall (fun c => no_nl (ct_key_id c)) l ->
  (exists texts, ssh_cert_info C iter why (ended_lines (map cert_display l)) = (ended_lines texts, true)
     /\ Forall2 (fun c t => exists shown, listing C c shown /\ t = ended_lines shown) l texts)
  /\ (exists texts, ssh_pubkey_from_cert C why (ended_lines (map cert_display l)) = (ended_lines texts, true)
     /\ Forall2 (fun c t => pk_from_string t = Ok (ct_key c) /\ no_nl t) l texts).
Proof.
  intros C iter why l P A N. pose proof (printed_lines C l A N) as L.
  assert (G : forall (Q : cert -> bytes -> Prop) texts, (forall c w t, Q (with_comment c w) t -> Q c t) ->
    Forall2 (fun line t => exists i, match cert_from_string C line with Ok c => Q c t | Err e => bad_line why i e t | Panic => False end) (map cert_display l) texts ->
    Forall2 Q l texts).
  { intros Q texts HQ. clear L N. revert texts. induction l as [|c l IH]; intros texts F; inversion F as [|x y xs ys (i & R) F' Ex Ey]; subst; [constructor|].
    apply Forall_cons_iff in A. destruct A as [(data & Ha) A]. constructor; [|apply IH; assumption].
    destruct (display_read C data c Ha) as (ws & _ & Rd). rewrite Rd in R. exact (HQ _ _ _ R). }
  split.
  - destruct (C106_listings C iter why (ended_lines (map cert_display l)) P) as (ls & texts & L' & E & B).
    rewrite (C106_one_reading _ _ _ L' L) in B. exists texts. split; [exact E|]. destruct B as [B1 B2]. apply G; [intros c w t H; exact H|].
    apply (about_each (fun i line t => match cert_from_string C line with Ok c => exists shown, listing C c shown /\ t = ended_lines shown | Err e => bad_line why i e t | Panic => False end)); assumption.
  - destruct (C106_keys_of_certificates C why (ended_lines (map cert_display l))) as (ls & texts & L' & E & B).
    rewrite (C106_one_reading _ _ _ L' L) in B. exists texts. split; [exact E|]. destruct B as [B1 B2]. apply G; [intros c w t H; exact H|].
    apply (about_each (fun i line t => match cert_from_string C line with Ok c => pk_from_string t = Ok (ct_key c) /\ no_nl t | Err e => bad_line why i e t | Panic => False end)); assumption.
Qed.
Print Assumptions C133_shown.

(** Whatever a key id has between two line breaks is a line of the printed certificate. *)
Theorem C133_lines_of_key_id : forall (C : crypto) (data : bytes) (c : cert) (before line behind : bytes) (ls : list bytes),
  cert_from_bytes C data = Ok c -> ct_key_id c = before ++ x0a :: line ++ behind -> behind = [] \/ (exists t, behind = x0a :: t) ->
  no_nl line -> (forall l, line <> l ++ [x0d]) -> lines_of (cert_display c ++ [x0a]) ls -> In line ls.
Proof.
  intros C data c before line behind ls _ E Hb Nl Nr L.
  assert (X : exists f t, cert_display c ++ [x0a] = f ++ x0a :: line ++ x0a :: t).
  { unfold cert_display. rewrite E. exists (kt_name (ct_key_type c) ++ [space] ++ b64_encode (ct_serialized c) ++ [space] ++ before).
    destruct Hb as [->|(t & ->)]; [exists []|exists (t ++ [x0a])]; repeat (progress (rewrite <- ?app_assoc; cbn [List.app])); reflexivity. }
  destruct X as (f & t & X). rewrite X in L. clear X E Hb.
  remember (f ++ x0a :: line ++ x0a :: t) as s eqn:Es. revert f Es.
  assert (Rest : forall ls, lines_of (line ++ x0a :: t) ls -> In line ls).
  { clear -Nl Nr. intros ls L. inversion L as [E|l Hl Hn E|l rest ls' Hl Hr E|l rest ls' Hl Hn Hr E].
    - destruct line; discriminate.
    - exfalso. subst. apply Hl, in_app_iff. right. left. reflexivity.
    - subst. exfalso. change (l ++ x0d :: x0a :: rest) with (l ++ [x0d] ++ x0a :: rest) in E. rewrite app_assoc in E.
      apply first_break in E; [|intros I; apply in_app_iff in I; destruct I as [I|[I|[]]]; [exact (Hl I)|discriminate]|exact Nl]. exact (Nr l (eq_sym (proj1 E))).
    - subst. apply first_break in E; [|exact Hl|exact Nl]. destruct E as [-> _]. left. reflexivity. }
  induction L as [|l Hl Hn|l rest ls Hl Hr IH|l rest ls Hl Hn Hr IH]; intros f Es.
  - destruct f; discriminate.
  - exfalso. subst. apply Hl, in_app_iff. right. left. reflexivity.
  - change (l ++ x0d :: x0a :: rest) with (l ++ [x0d] ++ x0a :: rest) in Es. rewrite app_assoc in Es.
    apply some_break in Es; [|intros I; apply in_app_iff in I; destruct I as [I|[I|[]]]; [exact (Hl I)|discriminate]].
    destruct Es as [[_ ->]|(f' & _ & ->)]; right; [apply Rest, Hr|apply (IH f' eq_refl)].
  - apply some_break in Es; [|exact Hl]. destruct Es as [[_ ->]|(f' & _ & ->)]; right; [apply Rest, Hr|apply (IH f' eq_refl)].
Qed.
Print Assumptions C133_lines_of_key_id.

(** ** Exceptions and examples *)
(** A printed certificate can bring along a line with a key that it does not certify. *)
Theorem C133_one_line_refuted : exists (c : cert) (line : bytes) (k : pubkey),
  parsed_with [OpKeyId (s2b "host" ++ x0a :: forged_line)] = Ok c
  /\ lines_of (cert_display c ++ [x0a]) [kt_name (ct_key_type c) ++ [x20] ++ b64_encode (ct_serialized c) ++ s2b " host"; line]
  /\ pk_from_string line = Ok k /\ pk_kind k <> pk_kind (ct_key c) /\ pk_kind k <> pk_kind (ct_signature_key c).
Proof.
  eexists. exists forged_line. eexists. split; [vm_compute; reflexivity|]. split; [apply lines_iff; vm_compute; reflexivity|].
  split; [vm_compute; reflexivity|]. split; discriminate.
Qed.
Print Assumptions C133_one_line_refuted.
(** ssh-cert-info shows a certificate that only stands in the key id of another. *)
Definition inner_line : bytes := match parsed_with [OpKeyId (s2b "inner"); OpPrincipal (s2b "root")] with Ok b => cert_display b | _ => [] end.
Theorem C133_only_printed_refuted : exists (a b : cert) (ta tb : bytes),
  parsed_with [OpKeyId (s2b "outer" ++ x0a :: inner_line); OpPrincipal (s2b "guest")] = Ok a
  /\ parsed_with [OpKeyId (s2b "inner"); OpPrincipal (s2b "root")] = Ok b
  /\ cert_listing lax_crypto (fun m => m) a = Ok ta /\ cert_listing lax_crypto (fun m => m) b = Ok tb
  /\ ct_principals a = [s2b "guest"] /\ ct_principals b = [s2b "root"]
  /\ ssh_cert_info lax_crypto (fun m => m) (fun _ => []) (cert_display a ++ [x0a]) = (ended_lines [ta; tb], true).
Proof.
  eexists _, _, _, _. do 6 (split; [vm_compute; reflexivity|]). vm_compute. reflexivity.
Qed.
Print Assumptions C133_only_printed_refuted.

Example C133_case : exists a b, parsed_with [OpKeyId (s2b "ann laptop"); OpPrincipal (s2b "ann")] = Ok a
  /\ parsed_with [OpKeyId (s2b "bob" ++ [x0d])] = Ok b
  /\ cert_from_bytes lax_crypto (ct_serialized a) = Ok a /\ cert_from_bytes lax_crypto (ct_serialized b) = Ok b
  /\ lines_of (ended_lines (map cert_display [a; b])) [cert_display a; kt_name (ct_key_type b) ++ [x20] ++ b64_encode (ct_serialized b) ++ s2b " bob"]
  /\ cert_from_string lax_crypto (cert_display a) = Ok (with_comment a (Some (s2b "ann")))
  /\ contains_byte x0a (ct_key_id a) = false /\ contains_byte x0a (ct_key_id b) = false.
Proof.
  eexists _, _. do 4 (split; [vm_compute; reflexivity|]). split; [apply lines_iff; vm_compute; reflexivity|]. split; [vm_compute; reflexivity|].
  split; vm_compute; reflexivity.
Qed.

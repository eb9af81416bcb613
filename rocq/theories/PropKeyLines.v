(** Property C151: public keys written one behind the other into a file. *)
From Coq Require Import Lia.
From Verif Require Import Base BaseFacts Utf8 Utf8Facts Str StrFacts SpecWire SpecText SpecBase64 SpecKeys SpecSigner Base64 Base64Facts
  KeyType KeyTypeFacts PubKeyType Writer WriterFacts Crypto PubKey PubKeyFacts PropPubKey Show SpecShow ShowFacts
  KindFacts PropInspect PropFiles PropEqual PropRewrite PropCertLines TbsFacts WireFacts Reader ReaderFacts.

(** A key whose printed line can be read: of a type that keys can have, with material that can be
    encoded and, if it has one, a comment that is a text. *)
Definition printable_key (k : pubkey) : Prop :=
  supported (pk_type k) /\ kt_plain (pk_type k) = kt_name (pk_type k)
  /\ (exists data, key_data (pk_type k) (pk_kind k) data)
  /\ match pk_comment k with Some c => utf8_text c | None => True end.
Definition unbroken_comment (k : pubkey) : Prop := match pk_comment k with Some c => no_nl c | None => True end.
(** A line is read as a key, with the first word of its comment. *)
Definition line_of_key (line : bytes) (k : pubkey) : Prop :=
  exists cm, match pk_comment k with Some c => exists ws, words_of c ws /\ cm = hd_error ws | None => cm = None end
    /\ pk_from_string line = Ok (mkPubKey (pk_type k) (pk_kind k) cm).

Lemma key_printed k : printable_key k -> exists t, pk_display k = Ok t /\ line_of_key t k /\ utf8_text t
  /\ (no_nl t <-> unbroken_comment k).
Proof.
  intros (Hs & Hp & (data & Hd) & Hc).
  assert (W : exists cm, match pk_comment k with Some c => exists ws, words_of c ws /\ cm = hd_error ws | None => cm = None end).
  { destruct (pk_comment k) as [c|]; [|eauto]. eexists. exists (split_whitespace c). split; [apply split_whitespace_words, Hc|reflexivity]. }
  destruct W as (cm & W). destruct (C23_text_round_trip k (pk_kind k) data cm Hs) as (t & Ht & Hr); [destruct (pk_kind k); cbn; auto|exact Hd|exact W|].
  rewrite Hp, bytes_eqb_refl in Hr. exists t. split; [exact Ht|]. split; [exists cm; auto|].
  unfold pk_display in Ht. apply bind_ok in Ht. destruct Ht as (e & _ & Ht). apply supported_known in Hs.
  assert (A : utf8_text (kt_name (pk_type k))) by (apply utf8_valid_iff, (known_utf8 _ Hs)).
  assert (B : utf8_text (b64_encode e)) by apply utf8_text_ascii, b64_encode_ascii.
  assert (S : utf8_text [space]) by (apply utf8_text_ascii; constructor; [reflexivity|constructor]).
  destruct (known_plain_text _ Hs) as [Kp _]. apply plain_no_nl in Kp.
  assert (N : no_nl (b64_encode e)).
  { intros I. pose proof (b64_graphic e) as G. rewrite Forall_forall in G. specialize (G _ I). cbn in G. lia. }
  unfold unbroken_comment. destruct (pk_comment k) as [c|]; apply ok_inj in Ht; subst t.
  - split; [repeat (apply utf8_text_app; try assumption)|]. unfold no_nl in *. rewrite !in_app_iff. cbn [In]. intuition discriminate.
  - split; [repeat (apply utf8_text_app; try assumption)|]. unfold no_nl in *. rewrite !in_app_iff. cbn [In]. intuition discriminate.
Qed.
Lemma line_of_cr l k : utf8_text (l ++ [x0d]) -> line_of_key (l ++ [x0d]) k -> no_nl l -> line_of_key l k.
Proof.
  intros U (cm & W & R) N. exists cm. split; [exact W|]. rewrite <- R. unfold pk_from_string. rewrite words_cr; [reflexivity|].
  destruct (words_lines (l ++ [x0d; x0a]) [l] (L_crlf l [] [] N L_end)) as [_ Z]; [|apply Forall_cons_iff in Z; apply Z].
  change [x0d; x0a] with ([x0d] ++ [x0a]). rewrite app_assoc. apply utf8_text_app; [exact U|].
  apply utf8_text_ascii. constructor; [cbn; lia|constructor].
Qed.
Lemma written_texts l texts : Forall printable_key l -> Forall2 (fun k t => pk_write k = Ok t) l texts ->
  exists shown, concat texts = ended_lines shown
    /\ Forall2 (fun k t => line_of_key t k /\ utf8_text t /\ (no_nl t <-> unbroken_comment k)) l shown.
Proof.
  intros A F. induction F as [|k t l texts Hw F IH]; [exists []; split; [reflexivity|constructor]|].
  apply Forall_cons_iff in A. destruct A as [Hk A]. destruct (IH A) as (shown & E & G). destruct (key_printed k Hk) as (x & Hx & P).
  rewrite pk_write_display, Hx in Hw. apply ok_inj in Hw. exists (x :: shown). split; [|constructor; assumption].
  cbn [concat]. rewrite <- Hw, E. reflexivity.
Qed.

(** Keys written one behind the other are read back line by line, each with the first word of its
    comment, exactly if no comment contains a line break. *)
Theorem C151_read_line_by_line : forall (l : list pubkey) (texts ls : list bytes),
  Forall printable_key l -> Forall2 (fun k t => pk_write k = Ok t) l texts -> lines_of (concat texts) ls ->
  (Forall2 line_of_key ls l <-> Forall unbroken_comment l).
Proof.
  intros l texts ls A F L. destruct (written_texts l texts A F) as (shown & E & G). rewrite E in L. clear E F A texts.
  pose proof (forall2_length _ _ _ G) as Len. split.
  - intros F. apply forall2_length in F. pose proof (breaks_lines _ _ L (ended_end _)) as E. rewrite ended_breaks in E.
    assert (Z : list_sum (map breaks shown) = 0) by lia. apply sum_none in Z. clear -G Z.
    induction G as [|k t l shown (_ & _ & H) G IH]; [constructor|]. cbn [map] in Z. apply Forall_cons_iff in Z. destruct Z as [Z1 Z].
    constructor; [apply H, breaks_none, Z1|apply IH, Z].
  - intros N. assert (Nt : Forall no_nl shown).
    { clear -G N. induction G as [|k t l shown (_ & _ & H) G IH]; [constructor|]. apply Forall_cons_iff in N. destruct N as [N1 N].
      constructor; [apply H, N1|apply IH, N]. }
    destruct (file_lines _ Nt) as (ls' & L' & F). assert (ls = ls') by (apply lines_of_lines in L; apply lines_of_lines in L'; change file_of with ended_lines in L'; congruence).
    subst ls'. clear L L' Len. revert ls F. induction G as [|k t l shown (H1 & H2 & H3) G IH]; intros ls F; inversion F as [|x y xs ys R F' Ex Ey]; subst; [constructor|].
    apply Forall_cons_iff in N. destruct N as [N1 N]. apply Forall_cons_iff in Nt. destruct Nt as [Nt1 Nt].
    constructor; [|apply IH; assumption]. destruct R as [<-|R]; [exact H1|]. subst t. apply line_of_cr; [assumption..|].
    intros I. apply Nt1, in_app_iff. auto.
Qed.
Print Assumptions C151_read_line_by_line.

Lemma word_of s ws : words_of s ws -> Forall word ws.
Proof. induction 1; repeat constructor; try assumption; try (match goal with H : word _ |- _ => apply H end). Qed.
Lemma no_ws_unbroken w : no_ws w -> no_nl w.
Proof.
  unfold no_nl. induction 1 as [|c bs l U W _ IH]; [intros []|]. rewrite in_app_iff. intros [I|I]; [|auto].
  inversion U; subst; cbn [In] in I;
    repeat match goal with H : _ \/ _ |- _ => destruct H as [H|H] end; subst; try contradiction;
    first [apply W; unfold ws_scalar; cbn; lia|unfold cbyte in *; change (Byte.to_N x0a) with 10%N in *; lia].
Qed.
(** Keys that were themselves read from texts come back as they were. *)
Theorem C151_read_keys : forall (l : list pubkey) (sources texts ls : list bytes),
  Forall2 (fun s k => utf8_text s /\ pk_from_string s = Ok k /\ kt_plain (pk_type k) = kt_name (pk_type k)) sources l ->
  Forall2 (fun k t => pk_write k = Ok t) l texts -> lines_of (concat texts) ls ->
  Forall2 (fun line k => pk_from_string line = Ok k) ls l.
Proof.
  intros l sources texts ls S F L.
  assert (P : Forall (fun k => printable_key k /\ match pk_comment k with Some c => word c | None => True end) l).
  { clear -S. induction S as [|s k sources l (U & R & P) S IH]; constructor; [|exact IH]. pose proof (string_key_ok s k R) as (K & _ & O).
    assert (W : match pk_comment k with Some c => word c | None => True end).
    { pose proof (split_whitespace_words s U) as W. apply word_of in W. destruct (split_whitespace s) as [|w1 [|w2 ws]] eqn:E.
      1,2: unfold pk_from_string in R; cbv zeta in R; rewrite E in R; discriminate.
      apply (pk_from_string_words s w1 w2 ws k E) in R. destruct R as (_ & _ & -> & _). destruct ws as [|w ws]; [exact I|].
      cbn [hd_error]. rewrite Forall_forall in W. apply W. right. right. left. reflexivity. }
    split; [|exact W]. split; [apply supported_known, K|]. split; [exact P|]. split; [exists (enc_kind (pk_kind k)); apply kd_intro, O|].
    destruct (pk_comment k); [apply no_ws_text, W|exact I]. }
  pose proof (proj2 (C151_read_line_by_line l texts ls (Forall_impl _ (fun k H => proj1 H) P) F L)) as G.
  assert (N : Forall unbroken_comment l).
  { eapply Forall_impl; [|exact P]. intros k [_ W]. unfold unbroken_comment. destruct (pk_comment k); [apply no_ws_unbroken, W|exact I]. }
  specialize (G N). clear -G P. induction G as [|line k ls l (cm & W & R) G IH]; [constructor|]. apply Forall_cons_iff in P. destruct P as [[_ Q] P].
  constructor; [|apply IH, P]. rewrite R. destruct k as [ty kd [c|]]; cbn [pk_type pk_kind pk_comment] in *; [|subst; reflexivity].
  destruct W as (ws & W & ->). apply words_of_split in W. assert (V : words_of c [c]) by (apply (W_last [] c); [constructor|exact Q]).
  apply words_of_split in V. rewrite <- W, V. reflexivity.
Qed.
Print Assumptions C151_read_keys.

(** Whatever a comment has between two line breaks is a line of the file. *)
Lemma line_inside f line t ls : no_nl line -> (forall l, line <> l ++ [x0d]) -> lines_of (f ++ x0a :: line ++ x0a :: t) ls -> In line ls.
Proof.
  intros Nl Nr L. remember (f ++ x0a :: line ++ x0a :: t) as s eqn:Es. revert f Es.
  assert (Rest : forall ls, lines_of (line ++ x0a :: t) ls -> In line ls).
  { clear -Nl Nr. intros ls L. inversion L as [E|l Hl Hn E|l rest ls' Hl Hr E|l rest ls' Hl Hn Hr E].
    - destruct line; discriminate.
    - exfalso. subst. apply Hl, in_app_iff. right. left. reflexivity.
    - subst. exfalso. change (l ++ x0d :: x0a :: rest) with (l ++ [x0d] ++ x0a :: rest) in E. rewrite app_assoc in E.
      apply first_break in E; [|intros I; apply in_app_iff in I; destruct I as [I|[I|[]]]; [exact (Hl I)|discriminate]|exact Nl]. exact (Nr l (eq_sym (proj1 E))).
    - subst. apply first_break in E; [|exact Hl|exact Nl]. destruct E as [-> _]. left. reflexivity. }
  induction L as [|l Hl Hn|l rest ls Hl Hr IH|l rest ls Hl Hn Hr IH]; intros f Es.
  - destruct f; discriminate.
  - exfalso. subst. apply Hl, in_app_iff. right. left. reflexivity.
  - change (l ++ x0d :: x0a :: rest) with (l ++ [x0d] ++ x0a :: rest) in Es. rewrite app_assoc in Es.
    apply some_break in Es; [|intros I; apply in_app_iff in I; destruct I as [I|[I|[]]]; [exact (Hl I)|discriminate]].
    destruct Es as [[_ ->]|(f' & _ & ->)]; right; [apply Rest, Hr|apply (IH f' eq_refl)].
  - apply some_break in Es; [|exact Hl]. destruct Es as [[_ ->]|(f' & _ & ->)]; right; [apply Rest, Hr|apply (IH f' eq_refl)].
Qed.
Theorem C151_lines_of_comment : forall (k : pubkey) (text before line behind earlier later : bytes) (ls : list bytes),
  pk_write k = Ok text -> pk_comment k = Some (before ++ x0a :: line ++ behind) -> behind = [] \/ (exists t, behind = x0a :: t) ->
  no_nl line -> (forall l, line <> l ++ [x0d]) -> lines_of (earlier ++ text ++ later) ls -> In line ls.
Proof.
  intros k text before line behind earlier later ls Hw Hc Hb Nl Nr L. unfold pk_write in Hw. apply bind_ok in Hw. destruct Hw as (e & _ & Hw).
  rewrite Hc in Hw. apply ok_inj in Hw.
  assert (X : exists f t, earlier ++ text ++ later = f ++ x0a :: line ++ x0a :: t).
  { exists (earlier ++ kt_name (pk_type k) ++ [space] ++ b64_encode e ++ [space] ++ before). change newline with x0a in Hw. subst text.
    destruct Hb as [->|(t & ->)]; [exists later|exists (t ++ x0a :: later)]; repeat (progress (rewrite <- ?app_assoc; cbn [List.app])); reflexivity. }
  destruct X as (f & t & X). rewrite X in L. exact (line_inside _ _ _ _ Nl Nr L).
Qed.
Print Assumptions C151_lines_of_comment.

(** A comment that a program sets can bring along a line with another key. *)
Definition lines_key (c : option bytes) : pubkey := mkPubKey ex_ed (PkEd25519 (repeat x09 32) None) c.
Theorem C151_one_line_refuted : exists (k k' : pubkey) (text first second : bytes),
  printable_key k /\ pk_write k = Ok text /\ lines_of text [first; second] /\ pk_from_string second = Ok k' /\ pk_kind k' <> pk_kind k.
Proof.
  exists (lines_key (Some (s2b "host" ++ x0a :: forged_line))). do 2 eexists.
  eexists (match lines (match pk_write (lines_key (Some (s2b "host" ++ x0a :: forged_line))) with Ok t => t | _ => [] end) with l :: _ => l | [] => [] end), forged_line.
  split.
  { split; [reflexivity|]. split; [reflexivity|]. split; [|apply utf8_valid_iff; vm_compute; reflexivity].
    exists (enc_kind (PkEd25519 (repeat x09 32) None)). apply kd_intro. cbn. unfold fits. cbn. repeat split; lia. }
  split; [vm_compute; reflexivity|]. split; [apply lines_iff; vm_compute; reflexivity|]. split; [vm_compute; reflexivity|discriminate].
Qed.
Print Assumptions C151_one_line_refuted.

Example C151_case : exists t1 t2 ls, pk_write (lines_key (Some (s2b "ann"))) = Ok t1 /\ pk_write (lines_key (Some (s2b "bob at" ++ [x0d]))) = Ok t2
  /\ Forall printable_key [lines_key (Some (s2b "ann")); lines_key (Some (s2b "bob at" ++ [x0d]))]
  /\ lines_of (t1 ++ t2) ls /\ map pk_from_string ls = [Ok (lines_key (Some (s2b "ann"))); Ok (lines_key (Some (s2b "bob")))].
Proof.
  do 2 eexists. eexists (lines _). split; [vm_compute; reflexivity|]. split; [vm_compute; reflexivity|]. split.
  { repeat constructor; try reflexivity; try (apply utf8_valid_iff; vm_compute; reflexivity).
    all: exists (enc_kind (PkEd25519 (repeat x09 32) None)); apply kd_intro; cbn; unfold fits; cbn; repeat split; lia. }
  split; [apply lines_iff; reflexivity|vm_compute; reflexivity].
Qed.

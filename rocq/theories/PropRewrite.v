(** Property C131: which allowed_signers entries survive being printed and read again. *)
From Coq Require Import Lia.
From Verif Require Import Base BaseFacts Reader ReaderFacts Writer WriterFacts Str StrFacts SpecWire SpecText SpecBase64 SpecKeys KeyType KeyTypeFacts
  PubKeyType PubKey PubKeyFacts Base64 Base64Facts Chrono AllowedSigner SpecSigner SpecRewrite SpecTrusted ChronoFacts SignerFacts EntryFacts FileFacts
  TbsFacts FidoFacts KindFacts CutSignerFacts PropPubKey PropSigner PropTrusted RewriteFacts.

(** The principals and namespaces are plain words, the key is plain and without a comment, and the bounds
    are what the calendar makes of their digits. *)
Definition survives (tz : timezone) (a : allowed_signer) : Prop :=
  plain_entry a /\ bound_kept tz (as_valid_after a) /\ bound_kept tz (as_valid_before a)
  /\ (forall x y, as_valid_after a = Some x -> as_valid_before a = Some y -> (x < y)%Z).
(** The first principal does not begin with white space. *)
Definition unindented (a : allowed_signer) : Prop := forall p ps, as_principals a = p :: ps -> ~ blank_first p.
(** No principal and no namespace contains a line break. *)
Definition unbroken (a : allowed_signer) : Prop :=
  Forall no_nl (as_principals a) /\ (forall ns, as_namespaces a = Some ns -> Forall no_nl ns).

Lemma display_printed a t : as_display a = Ok t -> exists e tail, pk_encode (as_key a) = Ok e /\ t = printed a e tail
  /\ match pk_comment (as_key a) with Some c => tail = x20 :: c | None => tail = [] end.
Proof.
  intros H. destruct (pk_display (as_key a)) as [key|er|] eqn:Ek; [|unfold as_display in H; rewrite Ek in H; discriminate..].
  rewrite (display_line a key Ek) in H. apply ok_inj in H. subst t. unfold pk_display in Ek.
  destruct (pk_encode (as_key a)) as [e|er|]; [|discriminate..]. cbn [bind] in Ek. exists e.
  unfold printed, key_part. change [space] with [x20] in Ek.
  destruct (pk_comment (as_key a)) as [c|]; apply ok_inj in Ek; subst key; [exists (x20 :: c)|exists []]; rewrite ?app_nil_r; repeat split.
Qed.

(** The printed line of an entry, any entry at all, is read back to it exactly in these cases. *)
Theorem C131_printed_line : forall (tz : timezone) (a : allowed_signer) (line : bytes), as_display a = Ok line ->
  (as_from_string tz line = Ok a <-> survives tz a).
Proof.
  intros tz a line D. split.
  - intros H. apply accepted_iff in H. destruct (display_printed a line D) as (e & tail & Ee & -> & Ht).
    apply (line_back tz a e tail Ee); [|exact H]. destruct (pk_comment (as_key a)); eauto.
  - intros (P & Ba & Bb & O). destruct (C67_printed_bounds tz a P) as (line' & D' & R & _). rewrite D in D'. apply ok_inj in D'. subst line'.
    assert (W : forall b, bound_kept tz b -> reread tz b b).
    { intros [x|] Hb; [|exact I]. cbn. destruct (Hb x eq_refl) as (d & Dx & St). rewrite (decimal_fun _ _ _ (display_z_decimal x) Dx). exact St. }
    rewrite (R _ _ (W _ Ba) (W _ Bb) O). destruct a; reflexivity.
Qed.
Print Assumptions C131_printed_line.

(** ** Files *)
Lemma run_ascii r b : ws_run r -> In b r -> (b2n b < 128)%N -> ws_scalar (b2n b).
Proof.
  induction 1 as [|c bs l Hc Hw _ IH]; [intros []|]. rewrite in_app_iff. intros [Hb|Hb] Hl; [|auto].
  unfold b2n in *. destruct Hc; unfold cbyte in *; cbn [In] in Hb; repeat (destruct Hb as [<-|Hb]; [first [exact Hw|exfalso; lia]|]); destruct Hb.
Qed.
Lemma b64_graphic l : Forall (fun c => (43 <= b2n c <= 122)%N) (b64_encode l).
Proof.
  rewrite b64_encode_core. apply Forall_app. split.
  - eapply Forall_impl; [|apply b64_core_chars]. intros c (v & Hv & ->).
    assert (G : forallb (fun n => (43 <=? b2n (b64_char (N.of_nat n)))%N && (b2n (b64_char (N.of_nat n)) <=? 122)%N) (seq 0 64) = true) by (vm_compute; reflexivity).
    rewrite forallb_forall in G. specialize (G (N.to_nat v)). rewrite N2Nat.id in G. rewrite andb_true_iff in G. 
    destruct G as [G1 G2]; [apply in_seq; lia|]. lia.
  - apply Forall_forall. intros b Hb. apply repeat_spec in Hb. subst b. cbn. lia.
Qed.
Lemma encoded_text k e : known (pk_type k) -> kind_ok (pk_type k) (pk_kind k) -> pk_encode k = Ok e -> exists x z, b64_encode e = x ++ [z] /\ (43 <= b2n z <= 122)%N.
Proof.
  intros Kn Ko Ee. rewrite pk_encode_enc in Ee; [|exact Kn|rewrite (canon_ok _ _ Ko); exact Ko]. apply ok_inj in Ee.
  destruct (exists_last (b64_nonempty e ltac:(rewrite <- Ee; apply enc_bytes_nonempty))) as (x & z & E). exists x, z. split; [exact E|].
  pose proof (b64_graphic e) as G. rewrite E in G. apply Forall_app in G. destruct G as [_ G]. inversion G; assumption.
Qed.
Lemma wide_char c bs b : utf8_char c bs -> 1 < length bs -> In b bs -> (128 <= b2n b)%N.
Proof. intros H L Hb. unfold b2n. destruct H; unfold cbyte in *; cbn [In length] in *; [lia|..]; repeat (destruct Hb as [<-|Hb]; [lia|]); destruct Hb. Qed.
(** A character in front of a text lies in front of the first ASCII character but one. *)
Lemma char_front c bs l P d T : utf8_char c bs -> bs ++ l = P ++ d :: T -> P <> [] -> (b2n d < 128)%N -> exists P', P = bs ++ P'.
Proof.
  intros Hc E Hn Hd. destruct (app_eq_app _ _ _ _ E) as (m & [[X1 X2]|[X1 X2]]); [|eauto].
  destruct m as [|y m]; [exists []; rewrite app_nil_r in *; auto|]. injection X2 as <- _. exfalso.
  assert (L : 1 < length bs) by (rewrite X1, app_length; destruct P; [congruence|cbn; lia]).
  pose proof (wide_char c bs d Hc L) as W. specialize (W ltac:(rewrite X1; apply in_app_iff; right; left; reflexivity)). lia.
Qed.
(** White space around a printed line is none of the printed text. *)
Lemma stripped_line tz a e tail t' : known (pk_type (as_key a)) -> kind_ok (pk_type (as_key a)) (pk_kind (as_key a)) -> pk_encode (as_key a) = Ok e ->
  (tail = [] \/ exists c, tail = x20 :: c) -> stripped (printed a e tail) t' -> accepted_line tz t' a ->
  exists tail', t' = printed a e tail' /\ (tail' = [] \/ exists c, tail' = x20 :: c).
Proof.
  intros Kn Ko Ee Ht (pre & post & E & R1 & R2 & F1 & F2) A.
  assert (E0 : pre = []).
  { destruct A as (_ & pw & pt & ows & kt & kd & o & W & U & (L1 & L2 & L3) & F & _). subst pt.
    pose proof (commas_nil _ L1 F) as Hn. set (P := commas (as_principals a)) in *.
    inversion W as [|n w rest ws Hw He Hl Et]. subst w ws.
    assert (n = 0).
    { destruct n as [|n]; [reflexivity|]. exfalso. cbn [repeat List.app] in Et. specialize (F1 [x20] _ (eq_sym Et) (spaces_run 1)). discriminate. }
    subst n. cbn [repeat List.app] in Et.
    destruct (next_char a e tail Kn) as (d & T & En & D). unfold printed in E. fold P in E. rewrite En in E.
    destruct (word_forms pw P Hw U Hn) as [(j & Ej)|[Ej Nq]].
    - destruct R1 as [|c bs l Hc Hws Hl']; [reflexivity|]. exfalso. rewrite <- !app_assoc in E. symmetry in E.
      destruct (char_front c bs _ P x20 (d :: T) Hc E Hn ltac:(cbn; lia)) as (P' & EP). rewrite <- Et, Ej, EP, <- !app_assoc in F1.
      specialize (F1 _ _ eq_refl (run_char c bs Hc Hws)). apply utf8_char_nonempty in Hc. congruence.
    - exfalso. subst pw. rewrite <- Et in E. cbn [List.app] in E. rewrite <- app_assoc in E.
      destruct (app_eq_app _ _ _ _ E) as (m & [[X1 X2]|[X1 X2]]).
      + destruct m as [|y m]; [cbn in X2; discriminate X2|]. injection X2 as <- _. apply Nq. rewrite X1. apply in_app_iff. right. left. reflexivity.
      + destruct m as [|y m]; [cbn in X2; discriminate X2|]. injection X2 as <- X2. destruct m as [|y m].
        * injection X2 as -> _. cbn in D. lia.
        * injection X2 as <- X2. assert (I : In d pre) by (rewrite X1; apply in_app_iff; right; right; left; reflexivity).
          apply (run_ascii _ _ R1) in I; [|lia]. unfold ws_scalar in I. lia. }
  subst pre. cbn [List.app] in E. destruct (encoded_text _ _ Kn Ko Ee) as (x & z & Ez & Z).
  unfold printed, key_part in E |- *. rewrite Ez in E |- *.
  set (front := commas (as_principals a) ++ spaced (entry_words a) ++ x20 :: kt_name (pk_type (as_key a)) ++ x20 :: x) in *.
  assert (G : forall r, commas (as_principals a) ++ spaced (entry_words a) ++ x20 :: kt_name (pk_type (as_key a)) ++ x20 :: (x ++ [z]) ++ r = (front ++ [z]) ++ r).
  { intros r. unfold front. repeat (progress (rewrite <- ?app_assoc; cbn [List.app])). reflexivity. }
  rewrite G in E. setoid_rewrite G.
  destruct (app_eq_app _ _ _ _ E) as (m & [[X1 X2]|[X1 X2]]).
  - destruct m as [|m0 m1] using rev_ind.
    + rewrite app_nil_r in X1. exists []. rewrite app_nil_r. auto.
    + exfalso. rewrite app_assoc in X1. apply app_inj_tail in X1. destruct X1 as [_ <-].
      assert (I : In z post) by (rewrite X2; apply in_app_iff; left; apply in_app_iff; right; left; reflexivity).
      apply (run_ascii _ _ R2) in I; [|lia]. unfold ws_scalar in I. lia.
  - exists m. split; [exact X1|]. destruct m as [|y m]; [auto|]. right. destruct Ht as [->|(c & ->)]; [discriminate|]. injection X2 as <- _. eauto.
Qed.
(** *** Line breaks *)
Lemma words_bytes l ws : line_words l ws -> forall w b, In w ws -> In b w -> In b l.
Proof.
  induction 1 as [l _|n w rest ws _ _ _ IH]; [intros w b []|]. intros v b [->|Hv] Hb; rewrite !in_app_iff; [auto|]. right. right. eapply IH; eauto.
Qed.
Lemma unquoted_bytes v u b : unquoted v u -> In b u -> In b v.
Proof. intros (i & j & -> & _) H. rewrite !in_app_iff. auto. Qed.
Lemma parts_bytes w name v b : option_parts w name v -> In b v -> In b w.
Proof. intros (x & U & _ & [->|[-> ->]]) H; apply (unquoted_bytes _ _ _ U) in H; [|destruct H]. apply in_app_iff. right. right. exact H. Qed.
Lemma namespaces_bytes tz o ows o' : option_words tz o ows o' -> forall ns, o_namespaces o' = Some ns ->
  o_namespaces o = Some ns \/ exists w, In w ows /\ forall x, In x ns -> x <> [] /\ ~ In x2c x /\ forall b, In b x -> In b w.
Proof.
  induction 1 as [o|o o1 o2 w ws H _ IH]; intros ns E; [auto|].
  destruct (IH ns E) as [E1|(v & Hv & Hbv)]; [|right; exists v; cbn; auto].
  destruct H as [name v P Q Nm|name v l P Q Nm O (_ & Lc & L)|name v t P Q Nm O T|name v t P Q Nm O T]; cbn [o_namespaces] in E1; auto.
  injection E1 as <-. right. exists w. split; [left; reflexivity|]. intros x Hx. apply without_empty_in in Hx. destruct Hx as [Hx Hn].
  split; [exact Hn|]. split; [rewrite Forall_forall in Lc; apply Lc, Hx|]. intros b Hb. apply (parts_bytes _ _ _ _ P). rewrite L. eapply in_commas; eauto.
Qed.
Lemma split_words_bytes s : forall skip cur w b, In w (split_ws_aux s skip cur) -> In b w -> In b s \/ In b cur.
Proof.
  induction s as [|a s IH]; intros skip cur w b H Hb; cbn [split_ws_aux] in H.
  - destruct cur as [|c cur]; [destruct H|]. destruct H as [<-|[]]. auto.
  - destruct skip as [|k]; [|destruct (IH _ _ _ _ H Hb); cbn; auto].
    destruct (ws_len (a :: s)) as [|k].
    + destruct (IH _ _ _ _ H Hb) as [I|I]; [cbn; auto|]. apply in_app_iff in I. cbn. destruct I as [I|[I|[]]]; auto.
    + destruct cur as [|c cur]; [destruct (IH _ _ _ _ H Hb) as [I|[]]; cbn; auto|].
      destruct H as [<-|H]; [auto|]. destruct (IH _ _ _ _ H Hb) as [I|[]]; cbn; auto.
Qed.
Lemma comment_bytes s k c b : pk_from_string s = Ok k -> pk_comment k = Some c -> In b c -> In b s.
Proof.
  intros H Hc Hb. assert (exists w1 w2 ws, split_whitespace s = w1 :: w2 :: ws) as (w1 & w2 & ws & E).
  { unfold pk_from_string in H. destruct (split_whitespace s) as [|w1 [|w2 ws]]; try discriminate. eauto. }
  apply (pk_from_string_words s w1 w2 ws k E) in H. destruct H as (_ & _ & H & _). rewrite Hc in H. destruct ws as [|w ws]; [discriminate|]. injection H as ->.
  destruct (split_words_bytes s 0 [] w b) as [I|[]]; auto. unfold split_whitespace in E. rewrite E. right. right. left. reflexivity.
Qed.
(** The texts of an entry that a line gives contain no line break. *)
Lemma entry_unbroken tz l a : accepted_line tz l a -> no_nl l -> unbroken a /\ (forall c, pk_comment (as_key a) = Some c -> no_nl c).
Proof.
  intros (_ & pw & pt & ows & kt & kd & o & W & U & (_ & _ & L) & _ & O & _ & R & _ & En & _) N. pose proof (words_bytes _ _ W) as B. split; [split|].
  - apply Forall_forall. intros p Hp I. apply N. apply (B pw); [left; reflexivity|]. apply (unquoted_bytes _ _ _ U). rewrite L. eapply in_commas; eauto.
  - intros ns Hns. apply Forall_forall. intros x Hx I. rewrite Hns in En. symmetry in En. destruct (namespaces_bytes _ _ _ _ O ns En) as [X|(w & Hw & Hb)]; [discriminate|].
    apply N, (B w); [|apply (Hb x Hx), I]. right. apply in_app_iff. auto.
  - intros c Hc I. pose proof (comment_bytes _ _ _ _ R Hc I) as X. rewrite !in_app_iff in X. apply N. destruct X as [X|[[X|[]]|X]]; [|discriminate|].
    + apply (B kt); [|exact X]. right. apply in_app_iff. cbn. auto.
    + apply (B kd); [|exact X]. right. apply in_app_iff. cbn. auto.
Qed.
Lemma no_nl_b l : contains_byte x0a l = false -> no_nl l.
Proof. intros H I. apply contains_iff in I. congruence. Qed.
Lemma no_nl_app a b : no_nl a -> no_nl b -> no_nl (a ++ b).
Proof. unfold no_nl. intros Ha Hb I. apply in_app_iff in I. tauto. Qed.
Lemma commas_nl l : Forall no_nl l -> no_nl (commas l).
Proof. intros F I. apply commas_in in I. destruct I as [I|(x & Hx & I)]; [discriminate|]. rewrite Forall_forall in F. exact (F x Hx I). Qed.
Lemma display_z_nl x : no_nl (display_z x).
Proof.
  destruct (decimal_spec (Z.abs_N x)) as (ds & E & H & _).
  assert (D : no_nl ds) by (intros I; rewrite Forall_forall in H; specialize (H _ I); unfold digit in H; cbn in H; lia).
  unfold display_z. rewrite E. destruct (x <? 0)%Z; [|exact D]. apply (no_nl_app [x2d]); [apply no_nl_b; reflexivity|exact D].
Qed.
Lemma printed_nl a e tail : known (pk_type (as_key a)) -> unbroken a -> no_nl tail -> no_nl (printed a e tail).
Proof.
  intros Kn [F1 F2] Nt. unfold printed, key_part. apply no_nl_app; [apply commas_nl, F1|]. apply no_nl_app.
  - unfold entry_words. rewrite !spaced_app. unfold cert_words, ns_words, bound_words. repeat apply no_nl_app.
    + destruct (as_cert_authority a); apply no_nl_b; reflexivity.
    + destruct (as_namespaces a) as [ns|]; [|apply no_nl_b; reflexivity]. unfold spaced. cbn [map concat]. rewrite app_nil_r.
      apply (no_nl_app (x20 :: s2b "namespaces=")); [apply no_nl_b; reflexivity|apply commas_nl, F2; reflexivity].
    + destruct (as_valid_after a) as [x|]; [|apply no_nl_b; reflexivity]. unfold spaced. cbn [map concat]. rewrite app_nil_r.
      apply (no_nl_app (x20 :: s2b "valid-after=")); [apply no_nl_b; reflexivity|apply display_z_nl].
    + destruct (as_valid_before a) as [x|]; [|apply no_nl_b; reflexivity]. unfold spaced. cbn [map concat]. rewrite app_nil_r.
      apply (no_nl_app (x20 :: s2b "valid-before=")); [apply no_nl_b; reflexivity|apply display_z_nl].
  - apply (no_nl_app [x20]); [apply no_nl_b; reflexivity|]. apply no_nl_app.
    + revert Kn. generalize (pk_type (as_key a)). apply known_forall. repeat (apply Forall_cons; [apply no_nl_b; reflexivity|]). apply Forall_nil.
    + apply (no_nl_app [x20]); [apply no_nl_b; reflexivity|]. apply no_nl_app; [|exact Nt].
      intros I. pose proof (b64_graphic e) as G. rewrite Forall_forall in G. specialize (G _ I). cbn in G. lia.
Qed.
Lemma lines_no_nl s ls : lines_of s ls -> Forall no_nl ls.
Proof. induction 1; constructor; auto. Qed.
(** *** The file of the printed lines *)
Definition file_of (texts : list bytes) : bytes := concat (map (fun t => t ++ [x0a]) texts).
Lemma file_lines texts : Forall no_nl texts -> exists ls, lines_of (file_of texts) ls /\ Forall2 (fun t l => t = l \/ t = l ++ [x0d]) texts ls.
Proof.
  induction texts as [|t texts IH]; intros F; [exists []; split; constructor|]. apply Forall_cons_iff in F. destruct F as [Ft F].
  destruct (IH F) as (ls & L & F2). unfold file_of in *. cbn [map concat].
  destruct t as [|b t _] using rev_ind.
  - exists ([] :: ls). split; [|constructor; auto]. cbn [List.app]. apply (L_lf [] _ ls); [intros []|intros [|? ?]; discriminate|exact L].
  - destruct (byte_eqb b x0d) eqn:Eb.
    + apply byte_eqb_eq in Eb. subst b. exists (t :: ls). split; [|constructor; auto]. rewrite <- !app_assoc. cbn [List.app].
      apply L_crlf; [|exact L]. intros I. apply Ft, in_app_iff. auto.
    + exists ((t ++ [b]) :: ls). split; [|constructor; auto]. rewrite <- (app_assoc (t ++ [b])). cbn [List.app]. apply L_lf; [exact Ft| |exact L].
      intros l' E. apply app_inj_tail in E. destruct E as [_ ->]. discriminate.
Qed.
Lemma entries_length tz ls es : entries tz ls es -> length es <= length ls
  /\ (length es = length ls -> Forall2 (fun l a => exists t, stripped l t /\ accepted_line tz t a) ls es).
Proof.
  induction 1 as [|l ls es _ _ [I1 I2]|l t a ls es _ St A _ [I1 I2]]; cbn [length].
  - split; [lia|constructor].
  - split; [lia|]. intros E. exfalso. lia.
  - split; [lia|]. intros E. constructor; [eauto|]. apply I2. lia.
Qed.
Lemma stripped_cr l t' : stripped l t' -> stripped (l ++ [x0d]) t'.
Proof.
  intros (pre & post & -> & R1 & R2 & F). exists pre, (post ++ [x0d]). split; [rewrite <- !app_assoc; reflexivity|]. split; [exact R1|]. split; [|exact F].
  apply ws_run_app; [exact R2|]. apply (run_char 13 [x0d]); [apply (Utf8_1 x0d); cbn; lia|unfold ws_scalar; lia].
Qed.
Lemma forall2_length {A B} (R : A -> B -> Prop) x y : Forall2 R x y -> length x = length y.
Proof. induction 1; cbn; congruence. Qed.
Lemma entry_survives tz a t t' : as_display a = Ok t -> stripped t t' -> accepted_line tz t' a -> survives tz a /\ unindented a.
Proof.
  intros D St A. destruct (display_printed a t D) as (e & tail & Ee & -> & Ht).
  assert (Ht' : tail = [] \/ exists c, tail = x20 :: c) by (destruct (pk_comment (as_key a)); eauto).
  pose proof A as (_ & pw & pt & ows & kt & kd & o & W & U & (L1 & L2 & L3) & F & _ & _ & R & _). destruct (read_known _ _ R) as [Kn Ko].
  destruct (stripped_line tz a e tail t' Kn Ko Ee Ht' St A) as (tail' & -> & Ht2). split; [exact (line_back tz a e tail' Ee Ht2 A)|].
  intros p ps Ep (c & bs & r & Hc & Hw & ->). destruct St as (pre & post & _ & _ & _ & F1 & _).
  assert (X : exists y, printed a e tail' = bs ++ y).
  { unfold printed. rewrite Ep. destruct ps as [|q ps]; [cbn [commas]|rewrite commas_cons]; rewrite <- !app_assoc; eauto. }
  destruct X as (y & X). specialize (F1 bs y X (run_char c bs Hc Hw)). apply utf8_char_nonempty in Hc. congruence.
Qed.
Lemma survives_line tz a t : as_display a = Ok t -> survives tz a -> unindented a -> unbroken a ->
  no_nl t /\ (forall l, t <> l ++ [x0d]) /\ ~ no_entry t /\ stripped t t /\ accepted_line tz t a.
Proof.
  intros D S Ui Ub. pose proof S as ((P1 & P2 & _ & (K1 & _ & K2 & data & K3)) & _). apply supported_known in K1. apply key_data_iff in K3. destruct K3 as [Ko _].
  destruct (display_printed a t D) as (e & tail & Ee & Et & Ht). rewrite K2 in Ht. subst tail.
  destruct (encoded_text _ _ K1 Ko Ee) as (x & z & Ez & Z).
  assert (Nt : no_nl t) by (rewrite Et; apply printed_nl; auto; intros []).
  assert (Lt : exists f, t = f ++ [z]).
  { rewrite Et. unfold printed, key_part. rewrite Ez, app_nil_r. eexists (commas (as_principals a) ++ spaced (entry_words a) ++ x20 :: kt_name (pk_type (as_key a)) ++ x20 :: x).
    repeat (progress (rewrite <- ?app_assoc; cbn [List.app])). reflexivity. }
  destruct Lt as (f & Ef).
  assert (St : stripped t t).
  { exists [], []. rewrite app_nil_r. split; [reflexivity|]. split; [constructor|]. split; [constructor|]. split.
    - intros u v E Ru. destruct Ru as [|c bs l Hc Hw Hl]; [reflexivity|]. exfalso. destruct (as_principals a) as [|p ps] eqn:Ep; [congruence|].
      apply Forall_cons_iff in P2. destruct P2 as [(Hp & _) _].
      assert (X : exists d T, t = p ++ d :: T /\ (b2n d < 128)%N).
      { rewrite Et. unfold printed. rewrite Ep. destruct ps as [|q ps].
        - destruct (next_char a e [] K1) as (d & T & -> & _). exists x20, (d :: T). split; [reflexivity|cbn; lia].
        - rewrite commas_cons, <- app_assoc. eexists x2c, _. split; [reflexivity|cbn; lia]. }
      destruct X as (d & T & X & Hd). rewrite X, <- app_assoc in E. symmetry in E.
      destruct (char_front c bs _ p d T Hc E Hp Hd) as (r & Er). apply (Ui p ps Ep). exists c, bs, r. auto.
    - intros u v E Rv. destruct v as [|b v _] using rev_ind; [reflexivity|]. exfalso. rewrite Ef, app_assoc in E. apply app_inj_tail in E. destruct E as [_ <-].
      assert (I : In z (v ++ [z])) by (apply in_app_iff; right; left; reflexivity). apply (run_ascii _ _ Rv) in I; [|lia]. unfold ws_scalar in I. lia. }
  split; [exact Nt|]. split; [intros l E; rewrite Ef in E; apply app_inj_tail in E; destruct E as [_ ->]; cbn in Z; lia|]. split.
  - intros [X|(c & X)]; apply trim_iff' in X; apply trim_iff' in St; rewrite St in X.
    + rewrite X in Ef. destruct f; discriminate.
    + pose proof (plain_commas _ P2) as Pc. pose proof (commas_nonempty _ P1 P2) as Nc. rewrite Et in X. unfold printed in X.
      destruct (commas (as_principals a)) as [|b m]; [congruence|]. injection X as -> _. destruct (Pc x23 (or_introl eq_refl)) as (_ & _ & Y). congruence.
  - split; [exact St|]. apply accepted_iff, (C131_printed_line tz a t D), S.
Qed.
(** A file with one printed line for each entry gives the entries back exactly if every entry survives in
    its line, has no line break in a principal or namespace and does not begin with white space. *)
Theorem C131_printed_file : forall (tz : timezone) (l : list allowed_signer) (texts : list bytes),
  Forall2 (fun a t => as_display a = Ok t) l texts ->
  (signers_from_string tz (file_of texts) = Ok l <-> Forall (fun a => survives tz a /\ unindented a /\ unbroken a) l).
Proof.
  intros tz l texts D. split.
  - intros H. destruct (lines_total (file_of texts)) as (ls0 & L0). pose proof (proj1 (proj1 (C66_file_is_its_lines tz _ _ L0) l) H) as En0.
    pose proof (lines_no_nl _ _ L0) as N0. rewrite Forall_forall in N0.
    assert (U : forall a, In a l -> unbroken a /\ known (pk_type (as_key a)) /\ (forall c, pk_comment (as_key a) = Some c -> no_nl c)).
    { intros a Ha. destruct (entries_in _ _ _ En0 a Ha) as (line & t & Hl & _ & (pre & post & E & _) & A).
      assert (Nt : no_nl t) by (intros I; apply (N0 line Hl); rewrite E, !in_app_iff; auto).
      destruct (entry_unbroken tz t a A Nt) as [U1 U2]. split; [exact U1|]. split; [|exact U2].
      destruct A as (_ & pw & pt & ows & kt & kd & o & _ & _ & _ & _ & _ & _ & R & _). apply (read_known _ _ R). }
    assert (Nt : Forall no_nl texts).
    { clear - D U. induction D as [|a t l texts Da _ IH]; constructor.
      - destruct (U a (or_introl eq_refl)) as (U1 & U2 & U3). destruct (display_printed a t Da) as (e & tail & _ & -> & Ht). apply printed_nl; auto.
        destruct (pk_comment (as_key a)) as [c|]; subst tail; [|intros []]. apply (no_nl_app [x20]); [apply no_nl_b; reflexivity|apply U3; reflexivity].
      - apply IH. intros b Hb. apply U. right. exact Hb. }
    destruct (file_lines texts Nt) as (ls & L & F2). pose proof (proj1 (proj1 (C66_file_is_its_lines tz _ _ L) l) H) as En.
    destruct (entries_length _ _ _ En) as [_ G]. specialize (G (eq_trans (forall2_length _ _ _ D) (forall2_length _ _ _ F2))).
    clear - D U F2 G. revert ls F2 G. induction D as [|a t l texts Da _ IH]; intros ls F2 G; [constructor|].
    inversion F2 as [|? line ? ls' Hl F2']; subst. inversion G as [|? ? ? ? (t' & St & A) G']; subst. constructor.
    + assert (St' : stripped t t') by (destruct Hl as [->| ->]; [exact St|apply stripped_cr, St]).
      destruct (entry_survives tz a t t' Da St' A). split; [assumption|]. split; [assumption|]. apply (U a). left. reflexivity.
    + eapply IH; [|exact F2'|exact G']. intros b Hb. apply U. right. exact Hb.
  - intros F. assert (X : exists ls, lines_of (file_of texts) ls /\ entries tz ls l).
    { induction D as [|a t l texts Da _ IH]; [exists []; split; constructor|]. apply Forall_cons_iff in F. destruct F as [(S & Ui & Ub) F].
      destruct (IH F) as (ls & L & En). destruct (survives_line tz a t Da S Ui Ub) as (N1 & N2 & N3 & N4 & N5). exists (t :: ls).
      unfold file_of in *. cbn [map concat]. rewrite <- app_assoc. cbn [List.app]. split; [apply L_lf; assumption|eapply En_entry; eauto]. }
    destruct X as (ls & L & En). apply (C66_file_is_its_lines tz _ _ L), En.
Qed.
Print Assumptions C131_printed_file.

(** ** Usual lines *)
Lemma line_words_words l ws : line_words l ws -> Forall line_word ws.
Proof. induction 1; constructor; auto. Qed.
Lemma quoteless_plain w : line_word w -> ~ In x22 w -> plain_text w.
Proof.
  intros (_ & p & q & Hp & [->|(c & _ & ->)] & ->) H; [rewrite app_nil_r; exact Hp|]. exfalso. apply H. rewrite in_app_iff. right. left. reflexivity.
Qed.
(** An entry without time bounds that is read from a line of printable ASCII characters without double quotes
    can be printed and read again, alone or in a file. *)
Theorem C131_unquoted_lines : forall (tz : timezone) (line : bytes) (a : allowed_signer),
  printable_ascii line -> ~ In x22 line -> as_from_string tz line = Ok a ->
  as_valid_after a = None -> as_valid_before a = None -> kt_plain (pk_type (as_key a)) = kt_name (pk_type (as_key a)) ->
  exists line', as_display a = Ok line' /\ as_from_string tz line' = Ok a /\ signers_from_string tz (line' ++ [x0a]) = Ok [a].
Proof.
  intros tz line a Pa Q R Va Vb Kp. destruct (C130_plain_lines tz line a Pa R) as (Kc & pw' & ows' & kt' & kd' & w' & pad & d & post & _ & _ & Kd & _).
  apply accepted_iff in R. pose proof R as (_ & pw & pt & ows & kt & kd & o & W & U & (L1 & L2 & L3) & F & O & _ & Rk & _ & En & _).
  pose proof (words_bytes _ _ W) as B. pose proof (line_words_words _ _ W) as LW. rewrite Forall_forall in LW.
  assert (Pw : forall w, In w (pw :: ows ++ [kt; kd]) -> plain_text w) by (intros w Hw; apply quoteless_plain; [apply LW, Hw|]; intros I; apply Q; eapply B; eauto).
  assert (Ept : pt = pw).
  { eapply unquoted_fun; [exact U|]. apply no_quote_unquoted. intros I. apply Q. apply (B pw); [left; reflexivity|exact I]. }
  rewrite Ept in L3.
  assert (P : plain_entry a).
  { split; [exact L1|]. split; [|split].
    - apply Forall_forall. intros p Hp. rewrite Forall_forall in F, L2. split; [apply F, Hp|]. split; [|apply L2, Hp].
      intros b Hb. apply (Pw pw); [left; reflexivity|]. rewrite L3. eapply in_commas; eauto.
    - intros ns Hns. rewrite Hns in En. symmetry in En. destruct (namespaces_bytes _ _ _ _ O ns En) as [X|(w & Hw & Hb)]; [discriminate|].
      apply Forall_forall. intros x Hx. destruct (Hb x Hx) as (X1 & X2 & X3). split; [exact X1|]. split; [|exact X2].
      intros b Ib. apply (Pw w); [right; apply in_app_iff; auto|apply X3, Ib].
    - split; [apply supported_known, (read_known _ _ Rk)|]. split; [exact Kp|]. split; [exact Kc|]. eauto. }
  assert (S : survives tz a) by (split; [exact P|]; rewrite Va, Vb; repeat split; intros x; discriminate).
  destruct (display_words_line a P) as (e & D & _). eexists. split; [exact D|]. split; [apply (C131_printed_line tz a _ D), S|].
  assert (X : signers_from_string tz (file_of [commas (as_principals a) ++ spaced (entry_words a ++ [kt_name (pk_type (as_key a)); b64_encode e])]) = Ok [a]).
  { apply C131_printed_file; [constructor; [exact D|constructor]|]. constructor; [|constructor]. split; [exact S|]. split.
    - intros p ps Ep (c & bs & r & Hc & Hw & ->). destruct bs as [|b bs]; [apply utf8_char_nonempty in Hc; congruence|].
      assert (Ib : In b pw) by (rewrite L3, Ep; apply (in_commas ((b :: bs) ++ r)); left; reflexivity).
      pose proof (B pw b (or_introl eq_refl) Ib) as Il. unfold printable_ascii in Pa. rewrite Forall_forall in Pa. specialize (Pa b Il).
      destruct (Pw pw (or_introl eq_refl) b Ib) as (Nb & _).
      assert (Hb : b2n b <> 32%N) by (intros E; apply Nb; change 32%N with (b2n x20) in E; apply b2n_inj, E).
      unfold b2n in Hb. inversion Hc; subst; try lia. unfold ws_scalar in Hw. lia.
    - apply (entry_unbroken tz line a R). intros I. unfold printable_ascii in Pa. rewrite Forall_forall in Pa. specialize (Pa _ I). cbn in Pa. lia. }
  unfold file_of in X. cbn [map concat] in X. rewrite app_nil_r in X. exact X.
Qed.
Print Assumptions C131_unquoted_lines.

(** ** Exceptions and examples *)
(** Printing a quoted principal without its quotes can make an authority of it; the two entries look alike. *)
Theorem C131_no_rights_added_refuted : exists (tz : timezone) (line line' : bytes) (a a' : allowed_signer),
  as_from_string tz line = Ok a /\ as_display a = Ok line' /\ as_from_string tz line' = Ok a'
  /\ as_cert_authority a = false /\ as_cert_authority a' = true /\ as_display a' = Ok line'.
Proof.
  exists utc, (s2b """bob cert-authority"" " ++ ex_key_text). eexists _, _, _. split; [vm_compute; reflexivity|].
  do 4 (split; [vm_compute; reflexivity|]). vm_compute; reflexivity.
Qed.
Print Assumptions C131_no_rights_added_refuted.
(** It can also exchange the key and drop the restriction to namespaces. *)
Theorem C131_same_key_refuted : exists (tz : timezone) (line line' : bytes) (a a' : allowed_signer),
  as_from_string tz line = Ok a /\ as_display a = Ok line' /\ as_from_string tz line' = Ok a'
  /\ as_key a' <> as_key a /\ as_namespaces a = Some [s2b "git"] /\ as_namespaces a' = None.
Proof.
  exists utc, (s2b """eve " ++ ex_key_text ++ s2b " #"" namespaces=git " ++ ex_ca_text). eexists _, _, _. split; [vm_compute; reflexivity|].
  split; [vm_compute; reflexivity|]. split; [vm_compute; reflexivity|]. split; [discriminate|]. split; reflexivity.
Qed.
Print Assumptions C131_same_key_refuted.
(** An entry that survives alone may name another principal when read from a file. *)
Theorem C131_line_suffices_refuted : exists (tz : timezone) (a a' : allowed_signer) (line : bytes),
  as_display a = Ok line /\ as_from_string tz line = Ok a /\ signers_from_string tz (line ++ [x0a]) = Ok [a']
  /\ as_principals a' <> as_principals a.
Proof.
  exists utc, (mkSigner [x09 :: s2b "bob"] false None None None ex_key). eexists _, _. split; [vm_compute; reflexivity|].
  split; [vm_compute; reflexivity|]. split; [vm_compute; reflexivity|discriminate].
Qed.
Print Assumptions C131_line_suffices_refuted.

Example C131_case : exists a line', as_from_string utc (s2b "ann,bob  cert-authority NameSpaces=git,,file " ++ ex_key_text ++ s2b " # laptop") = Ok a
  /\ as_display a = Ok line' /\ line' = s2b "ann,bob cert-authority namespaces=git,file " ++ ex_key_text
  /\ as_from_string utc line' = Ok a /\ signers_from_string utc (line' ++ [x0a]) = Ok [a].
Proof. eexists _, _. do 4 (split; [vm_compute; reflexivity|]). vm_compute; reflexivity. Qed.
Example C131_case_hypotheses : let line := s2b "ann,bob  cert-authority NameSpaces=git,,file " ++ ex_key_text ++ s2b " # laptop" in
  forallb (fun b => (32 <=? b2n b)%N && (b2n b <? 127)%N) line = true /\ contains_byte x22 line = false.
Proof. split; vm_compute; reflexivity. Qed.
(** Entries that do not survive: a space in a namespace, a comment of the key, a time bound. *)
Example C131_case_lost :
  (exists line, as_display (mkSigner [s2b "ann"] false (Some [s2b "a b"]) None None ex_key) = Ok line
     /\ as_from_string utc line = Err (EInvalidAllowedSigner ASInvalidKey))
  /\ (exists line, as_display (mkSigner [s2b "ann"] false None None None (mkPubKey ex_ed (PkEd25519 (repeat x07 32) None) (Some (s2b "laptop")))) = Ok line
     /\ as_from_string utc line = Err (EInvalidAllowedSigner ASUnexpectedEnd))
  /\ (exists line, as_display (mkSigner [s2b "ann"] false None None (Some 1800000000%Z) ex_key) = Ok line
     /\ as_from_string utc line = Err (EInvalidAllowedSigner (ASInvalidOption (s2b "valid-before")))).
Proof. split; [|split]; eexists; (split; [vm_compute; reflexivity|vm_compute; reflexivity]). Qed.

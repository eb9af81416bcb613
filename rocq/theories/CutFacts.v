(** Lemmas on beginnings of texts. *)
From Coq Require Import Lia.
From Verif Require Import Base BaseFacts SpecWire SpecText SpecBase64 Utf8 Utf8Facts Base64 Base64Facts Str StrFacts KeyType KeyTypeFacts
  PubKeyType PubKey PubKeyFacts Crypto Signature SpecSshSig SshSigFacts Cert SpecFiles.

Lemma beginning_refl {A} (t : list A) : beginning t t.
Proof. exists []. rewrite app_nil_r. reflexivity. Qed.
Lemma beginning_nil {A} (t : list A) : beginning [] t.
Proof. exists t. reflexivity. Qed.
Lemma beginning_cons {A} (x : A) p t : beginning p t -> beginning (x :: p) (x :: t).
Proof. intros (r & ->). exists r. reflexivity. Qed.
Lemma beginning_cons_inv {A} (x y : A) p t : beginning (x :: p) (y :: t) -> x = y /\ beginning p t.
Proof. intros (r & H). injection H as -> ->. split; [reflexivity|exists r; reflexivity]. Qed.
Lemma beginning_firstn {A} n (t : list A) : beginning (firstn n t) t.
Proof. exists (skipn n t). symmetry. apply firstn_skipn. Qed.
Lemma beginning_comparable {A} (a b t : list A) : beginning a t -> beginning b t -> beginning a b \/ beginning b a.
Proof.
  revert b t. induction a as [|x a IH]; intros b t Ha Hb; [left; apply beginning_nil|].
  destruct b as [|y b]; [right; apply beginning_nil|]. destruct t as [|z t]; [destruct Ha as (r & E); discriminate|].
  apply beginning_cons_inv in Ha, Hb. destruct Ha as [-> Ha], Hb as [-> Hb].
  destruct (IH b t Ha Hb) as [H|H]; [left|right]; apply beginning_cons, H.
Qed.

(** ** UTF-8: what is left behind a beginning is text *)
Lemma utf8_char_beginning c bs : utf8_char c bs -> forall d ds x y, utf8_char d ds -> ds ++ x = bs ++ y -> ds = bs /\ c = d.
Proof.
  intros H d ds x y Hd E.
  inversion H; subst; inversion Hd; subst; cbn [app] in E; injection E; intros; subst; unfold cbyte in *; try lia; auto.
Qed.
Lemma utf8_text_rest a : utf8_text a -> forall b, utf8_text (a ++ b) -> utf8_text b.
Proof.
  induction 1 as [|c bs l Hc Hl IH]; intros b Hb; [exact Hb|]. rewrite <- app_assoc in Hb. remember (bs ++ l ++ b) as s eqn:E.
  destruct Hb as [|d ds m Hd Hm].
  - apply utf8_char_nonempty in Hc. destruct bs; [congruence|discriminate].
  - destruct (utf8_char_beginning _ _ Hc _ _ _ _ Hd E) as [-> _]. apply app_inv_head in E. subst m. auto.
Qed.

(** ** Words *)
Inductive cut_words : list bytes -> list bytes -> Prop :=
| CW_nil ws : cut_words [] ws
| CW_last w' w ws : beginning w' w -> cut_words [w'] (w :: ws)
| CW_cons w ws' ws : cut_words ws' ws -> cut_words (w :: ws') (w :: ws).

Lemma split_ws_cur l : forall skip cur, cur <> [] -> exists w ws, split_ws_aux l skip cur = (cur ++ w) :: ws.
Proof.
  induction l as [|b l IH]; intros skip cur Hc; cbn [split_ws_aux].
  - exists [], []. rewrite app_nil_r. destruct cur; [congruence|reflexivity].
  - destruct skip as [|k]; [|apply IH, Hc]. destruct (ws_len (b :: l)) as [|k].
    + destruct (IH 0 (cur ++ [b])) as (w & ws & ->); [destruct cur; discriminate|]. rewrite <- app_assoc. eauto.
    + exists [], (split_ws_aux l k []). rewrite app_nil_r. destruct cur; [congruence|reflexivity].
Qed.
Lemma cut_split p : utf8_text p -> forall r cur, cut_words (split_ws_aux p 0 cur) (split_ws_aux (p ++ r) 0 cur).
Proof.
  induction 1 as [|c bs l Hc Hl IH]; intros r cur.
  - cbn [app split_ws_aux]. destruct cur as [|b cur]; [constructor|].
    destruct (split_ws_cur r 0 (b :: cur)) as (w & ws & ->); [discriminate|]. apply CW_last. exists w. reflexivity.
  - rewrite <- app_assoc. destruct (ws_len_char c bs [] Hc) as [[Hw _]|[Hw _]].
    + rewrite !(split_ws_char_ws c bs) by assumption. unfold flush. destruct cur; [apply IH|]. apply CW_cons, IH.
    + rewrite !(split_ws_char_no c bs) by assumption. apply IH.
Qed.
Lemma cut_whitespace p t : utf8_text p -> beginning p t -> cut_words (split_whitespace p) (split_whitespace t).
Proof. intros Hp (r & ->). apply cut_split, Hp. Qed.

(** ** Base64 *)
Lemma some_inj {A} (a b : A) : Some a = Some b -> a = b.
Proof. congruence. Qed.
Lemma b64_tail2_some c1 c2 x : b64_tail2 c1 c2 = Some x ->
  exists v1 v2, b64_val c1 = Some v1 /\ b64_val c2 = Some v2 /\ x = [n2b (v1 * 4 + v2 / 16)].
Proof.
  unfold b64_tail2. destruct (b64_val c1) as [v1|], (b64_val c2) as [v2|]; try discriminate. destruct (_ =? _)%N; [|discriminate].
  intros H. exists v1, v2. split; [reflexivity|]. split; [reflexivity|]. congruence.
Qed.
Lemma b64_tail3_some c1 c2 c3 x : b64_tail3 c1 c2 c3 = Some x ->
  exists v1 v2 v3, b64_val c1 = Some v1 /\ b64_val c2 = Some v2 /\ b64_val c3 = Some v3
    /\ x = [n2b (v1 * 4 + v2 / 16); n2b (v2 mod 16 * 16 + v3 / 4)].
Proof.
  unfold b64_tail3. destruct (b64_val c1) as [v1|], (b64_val c2) as [v2|], (b64_val c3) as [v3|]; try discriminate.
  destruct (_ =? _)%N; [|discriminate]. intros H. exists v1, v2, v3. repeat (split; [reflexivity|]). congruence.
Qed.
Lemma b64_pad_val c : is_pad c = true -> b64_val c = None.
Proof. unfold is_pad. intros H. apply byte_eqb_eq in H. subst c. reflexivity. Qed.

Lemma b64_decode_cut (x : bytes) : forall y a b, beginning x y -> b64_decode x = Some a -> b64_decode y = Some b -> beginning a b.
Proof.
  induction x as [|c1|c1 c2|c1 c2 c3|c1 c2 c3 c4 x IH] using ind4; intros y a b (r & ->) Ha Hb.
  - cbn in Ha. injection Ha as <-. apply beginning_nil.
  - discriminate.
  - cbn [b64_decode] in Ha. apply b64_tail2_some in Ha. destruct Ha as (v1 & v2 & E1 & E2 & ->).
    destruct r as [|c3 [|c4 r]]; cbn [app b64_decode] in Hb.
    + apply b64_tail2_some in Hb. destruct Hb as (? & ? & ? & ? & ->). replace v1 with x by congruence. replace v2 with x0 by congruence.
      apply beginning_refl.
    + destruct (is_pad c3).
      * apply b64_tail2_some in Hb. destruct Hb as (? & ? & ? & ? & ->). replace v1 with x by congruence. replace v2 with x0 by congruence.
        apply beginning_refl.
      * apply b64_tail3_some in Hb. destruct Hb as (? & ? & ? & ? & ? & ? & ->). replace v1 with x by congruence. replace v2 with x0 by congruence.
        eexists. cbn [app]. reflexivity.
    + destruct (is_pad c4).
      * destruct r; [|discriminate]. destruct (is_pad c3).
        -- apply b64_tail2_some in Hb. destruct Hb as (? & ? & ? & ? & ->). replace v1 with x by congruence. replace v2 with x0 by congruence.
           apply beginning_refl.
        -- apply b64_tail3_some in Hb. destruct Hb as (? & ? & ? & ? & ? & ? & ->). replace v1 with x by congruence. replace v2 with x0 by congruence.
           eexists. cbn [app]. reflexivity.
      * rewrite E1, E2 in Hb. destruct (b64_val c3), (b64_val c4); try discriminate. destruct (b64_decode r); [|discriminate].
        apply some_inj in Hb. rewrite <- Hb. eexists. cbn [app]. reflexivity.
  - cbn [b64_decode] in Ha. destruct (is_pad c3) eqn:P3.
    + apply b64_tail2_some in Ha. destruct Ha as (v1 & v2 & E1 & E2 & ->).
      destruct r as [|c4 r]; cbn [app b64_decode] in Hb; rewrite ?P3 in Hb.
      * apply b64_tail2_some in Hb. destruct Hb as (? & ? & ? & ? & ->). replace v1 with x by congruence. replace v2 with x0 by congruence.
        apply beginning_refl.
      * destruct (is_pad c4).
        -- destruct r; [|discriminate]. apply b64_tail2_some in Hb. destruct Hb as (? & ? & ? & ? & ->).
           replace v1 with x by congruence. replace v2 with x0 by congruence. apply beginning_refl.
        -- rewrite E1, E2, (b64_pad_val c3 P3) in Hb. discriminate.
    + apply b64_tail3_some in Ha. destruct Ha as (v1 & v2 & v3 & E1 & E2 & E3 & ->).
      destruct r as [|c4 r]; cbn [app b64_decode] in Hb; rewrite ?P3 in Hb.
      * apply b64_tail3_some in Hb. destruct Hb as (? & ? & ? & ? & ? & ? & ->).
        replace v1 with x by congruence. replace v2 with x0 by congruence. replace v3 with x1 by congruence. apply beginning_refl.
      * destruct (is_pad c4).
        -- destruct r; [|discriminate]. apply b64_tail3_some in Hb. destruct Hb as (? & ? & ? & ? & ? & ? & ->).
           replace v1 with x by congruence. replace v2 with x0 by congruence. replace v3 with x1 by congruence. apply beginning_refl.
        -- rewrite E1, E2, E3 in Hb. destruct (b64_val c4); [|discriminate]. destruct (b64_decode r); [|discriminate].
           apply some_inj in Hb. rewrite <- Hb. eexists. cbn [app]. reflexivity.
  - cbn [app b64_decode] in Ha, Hb. destruct (is_pad c4) eqn:P4.
    + destruct x; [|discriminate]. cbn [app] in Hb. destruct r; [|discriminate]. replace a with b by congruence. apply beginning_refl.
    + destruct (b64_val c1), (b64_val c2), (b64_val c3), (b64_val c4); try discriminate.
      destruct (b64_decode x) as [a'|] eqn:Ex; [|discriminate]. destruct (b64_decode (x ++ r)) as [b'|] eqn:Er; [|discriminate].
      apply some_inj in Ha, Hb. rewrite <- Ha, <- Hb. repeat apply beginning_cons. apply (IH (x ++ r) a' b'); [exists r; reflexivity|reflexivity|exact Er].
Qed.

Lemma b64_decode_no_dash t d : b64_decode t = Some d -> ~ In x2d t.
Proof.
  intros H. apply b64_decode_inv in H. destruct H as (k & _ & ->). intros Hi. apply in_app_or in Hi. destruct Hi as [Hi|Hi].
  - apply (b64_encode_no_dash d). rewrite b64_encode_core. apply in_or_app. auto.
  - apply repeat_spec in Hi. discriminate.
Qed.

(** ** Lines *)
Definition last_line (cur : bytes) : list bytes := match cur with [] => [] | _ => [cur] end.
Lemma lines_cut p : forall r cur, exists ls cur',
  lines_aux p cur = ls ++ last_line cur' /\ lines_aux (p ++ r) cur = ls ++ lines_aux r cur'
  /\ exists x, cur' = x /\ (ls = [] -> x = cur ++ p).
Proof.
  induction p as [|b p IH]; intros r cur; cbn [app lines_aux].
  - exists [], cur. split; [reflexivity|]. split; [reflexivity|]. exists cur. rewrite app_nil_r. auto.
  - destruct (byte_eqb b newline).
    + destruct (IH r []) as (ls & cur' & -> & -> & _). exists (strip_cr cur :: ls), cur'. split; [reflexivity|]. split; [reflexivity|].
      exists cur'. split; [reflexivity|discriminate].
    + destruct (IH r (cur ++ [b])) as (ls & cur' & -> & -> & x & H1 & H2). exists ls, cur'. split; [reflexivity|]. split; [reflexivity|].
      exists x. split; [exact H1|]. intros E. rewrite (H2 E), <- app_assoc. reflexivity.
Qed.
(** A line that was begun goes on. *)
Lemma strip_cr_app a b : b <> [] -> strip_cr (a ++ b) = a ++ strip_cr b.
Proof.
  intros Hb. induction a as [|x a IH]; cbn [app]; [reflexivity|]. destruct (a ++ b) as [|y l] eqn:E.
  - destruct a; [cbn in E; congruence|discriminate].
  - change (strip_cr (x :: y :: l)) with (x :: strip_cr (y :: l)). rewrite IH. reflexivity.
Qed.
Lemma strip_cr_plain a : ~ In carriage_return a -> strip_cr a = a.
Proof.
  induction a as [|x a IH]; intros H; [reflexivity|]. destruct a as [|y a].
  - cbn [strip_cr]. destruct (byte_eqb x carriage_return) eqn:E; [|reflexivity]. apply byte_eqb_eq in E. subst x. exfalso. apply H. left. reflexivity.
  - change (strip_cr (x :: y :: a)) with (x :: strip_cr (y :: a)). rewrite IH; [reflexivity|]. intros Hi. apply H. right. exact Hi.
Qed.
Lemma strip_cr_begins a b : ~ In carriage_return a -> beginning a (strip_cr (a ++ b)).
Proof.
  intros H. destruct b as [|y b]; [rewrite app_nil_r, strip_cr_plain by exact H; apply beginning_refl|].
  rewrite strip_cr_app by discriminate. eexists. reflexivity.
Qed.
Lemma lines_goes_on r cur : cur <> [] -> ~ In carriage_return cur -> exists l ls, lines_aux r cur = l :: ls /\ beginning cur l.
Proof.
  intros Hne Hc. assert (G : forall x, exists l ls, lines_aux r (cur ++ x) = l :: ls /\ beginning cur l).
  { induction r as [|b r IH]; intros x; cbn [lines_aux].
    - destruct (cur ++ x) as [|y l] eqn:E; [destruct cur; [congruence|discriminate]|]. exists (y :: l), []. split; [reflexivity|].
      rewrite <- E. exists x. reflexivity.
    - destruct (byte_eqb b newline).
      + eexists _, _. split; [reflexivity|]. apply strip_cr_begins, Hc.
      + rewrite <- app_assoc. apply IH. }
  specialize (G []). rewrite app_nil_r in G. exact G.
Qed.

Lemma split_at_first (e : bytes) (ls : list bytes) : In e ls -> exists a b, ls = a ++ e :: b /\ ~ In e a.
Proof.
  induction ls as [|q ls IH]; intros H; [destruct H|]. destruct (bytes_dec q e) as [->|Hq]; [exists [], ls; auto|].
  destruct H as [->|H]; [congruence|]. destruct (IH H) as (a & b & -> & Na). exists (q :: a), b. split; [reflexivity|].
  intros [X|X]; [exact (Hq X)|exact (Na X)].
Qed.
Lemma first_unique {A} (e : A) l1 : forall r1 l2 r2, l1 ++ e :: r1 = l2 ++ e :: r2 -> ~ In e l1 -> ~ In e l2 -> l1 = l2.
Proof.
  induction l1 as [|x l1 IH]; intros r1 l2 r2 E N1 N2; destruct l2 as [|y l2]; cbn [app] in E; [reflexivity| | |].
  - injection E as -> _. exfalso. apply N2. left. reflexivity.
  - injection E as -> _. exfalso. apply N1. left. reflexivity.
  - injection E as -> E. f_equal. apply (IH r1 l2 r2 E); intros X; [apply N1|apply N2]; right; exact X.
Qed.

(** ** Armor: accepted beginnings hold the same data *)
Lemma armor_cut b e p t d : In x2d e -> ~ In carriage_return e -> beginning p t ->
  armor_decode b e t = Ok d -> armor_decode b e p = Ok d \/ armor_decode b e p = Err EInvalidFormat.
Proof.
  intros He Hc (r & ->) Ht. unfold armor_decode in *. unfold lines in *.
  destruct (lines_cut p r []) as (ls & cur & E1 & E2 & _). rewrite E1. rewrite E2 in Ht. clear E1 E2. cbv zeta in *.
  match type of Ht with (if ?x then _ else _) = _ => destruct x; [discriminate Ht|] end.
  match goal with |- (if ?x then _ else _) = _ \/ _ => destruct x; [right; reflexivity|] end.
  destruct (armor_body_cases e (tl (ls ++ last_line cur)) []) as [(x' & Hx')|Hx']; rewrite Hx'; [|auto]. left. cbn [bind].
  apply bind_ok in Ht. destruct Ht as (x & Hx & Ht).
  apply armor_body_iff in Hx', Hx. destruct Hx' as (body' & rest' & L' & N' & ->), Hx as (body & rest & L & N & ->). cbn [app] in *.
  destruct (b64_decode (concat body)) as [y|] eqn:Ey; [|discriminate]. cbn [ok_or] in Ht. apply b64_decode_no_dash in Ey as Hd.
  destruct ls as [|h ls].
  - cbn [app] in *. exfalso. destruct cur; cbn [last_line tl] in L'; [destruct body'; discriminate|destruct body'; discriminate].
  - cbn [app tl] in L', L. assert (Hb : body' = body); [|rewrite Hb, Ey; exact Ht].
    destruct (in_dec bytes_dec e ls) as [Hi|Hi].
    + (* the END line is among the complete lines *)
      destruct (split_at_first e ls Hi) as (a1 & a2 & -> & Na). rewrite <- app_assoc in L', L. cbn [app] in L', L.
      rewrite <- (first_unique e _ _ _ _ L' Na N'). apply (first_unique e _ _ _ _ L Na N).
    + (* it is the last line of the beginning *)
      assert (Hcur : cur = e /\ body' = ls).
      { destruct cur as [|c0 cur]; cbn [last_line] in L'.
        - rewrite app_nil_r in L'. exfalso. apply Hi. rewrite L'. apply in_or_app. right. left. reflexivity.
        - assert (X : rest' = []).
          { destruct rest' as [|q rest'] using rev_ind; [reflexivity|]. exfalso. clear IHrest'.
            assert (Y : ls ++ [c0 :: cur] = (body' ++ e :: rest') ++ [q]) by (rewrite <- app_assoc; exact L').
            apply app_inj_tail in Y. destruct Y as [Y _]. apply Hi. rewrite Y. apply in_or_app. right. left. reflexivity. }
          subst rest'. apply app_inj_tail in L'. destruct L' as [<- <-]. auto. }
      destruct Hcur as [-> ->].
      destruct (lines_goes_on r e) as (l & ls2 & El & Hl); [destruct e; [destruct He|discriminate]|exact Hc|].
      rewrite El in L. destruct (bytes_dec l e) as [->|Hne].
      * apply (first_unique e _ _ _ _ L Hi N).
      * exfalso. apply Hd. apply in_concat. exists l. split.
        -- clear - L Hne Hi. revert body L. induction ls as [|q ls IH]; intros body L.
           ++ destruct body as [|w body]; cbn [app] in L; injection L as -> L; [congruence|left; reflexivity].
           ++ destruct body as [|w body]; [cbn [app] in L; injection L as -> _; exfalso; apply Hi; left; reflexivity|].
              cbn [app] in L. injection L as <- L. right. apply IH; [intros X; apply Hi; right; exact X|exact L].
        -- destruct Hl as (z & ->). apply in_or_app. auto.
Qed.

(** ** Text that has not reached its END line *)
Lemma app_past {A} (x : A) a X b Y : a ++ x :: X = b ++ Y -> ~ In x b -> exists c, a = b ++ c /\ Y = c ++ x :: X.
Proof.
  revert a. induction b as [|y b IH]; intros a E Hn; [exists a; auto|]. destruct a as [|z a]; cbn [app] in E.
  - injection E as -> _. exfalso. apply Hn. left. reflexivity.
  - injection E as -> E. destruct (IH a E) as (c & -> & ->); [intros H; apply Hn; right; exact H|]. exists c. auto.
Qed.
Lemma lines_inside p : forall cur l, ~ In newline cur -> In l (lines_aux p cur) -> ~ In carriage_return l ->
  exists u v, cur ++ p = u ++ l ++ v /\ (u = [] \/ exists u', u = u' ++ [newline]).
Proof.
  assert (S : forall cur, exists z, cur = strip_cr cur ++ z).
  { induction cur as [|x cur (z & IH)]; [exists []; reflexivity|]. destruct cur as [|y cur].
    - cbn [strip_cr]. destruct (byte_eqb x carriage_return); [exists [x]|exists []]; reflexivity.
    - exists z. change (strip_cr (x :: y :: cur)) with (x :: strip_cr (y :: cur)). cbn [app]. rewrite IH at 1. reflexivity. }
  induction p as [|b p IH]; intros cur l Hn Hi Hc; cbn [lines_aux] in Hi.
  - destruct cur as [|c cur]; [destruct Hi|]. destruct Hi as [<-|[]]. exists [], []. cbn [app]. auto.
  - destruct (byte_eqb b newline) eqn:E.
    + apply byte_eqb_eq in E. subst b. destruct Hi as [<-|Hi].
      * destruct (S cur) as (z & Ez). exists [], (z ++ newline :: p). cbn [app]. split; [|auto]. rewrite app_assoc, <- Ez. reflexivity.
      * destruct (IH [] l (fun x => x) Hi Hc) as (u & v & E & Hu). cbn [app] in E. exists (cur ++ newline :: u), v.
        split; [rewrite E, <- app_assoc; reflexivity|]. right. destruct Hu as [-> |(u' & ->)]; [exists cur; reflexivity|].
        exists (cur ++ newline :: u'). rewrite <- app_assoc. reflexivity.
    + destruct (IH (cur ++ [b]) l) as (u & v & E2 & Hu).
      * intros X. apply in_app_or in X. destruct X as [X|[X|[]]]; [exact (Hn X)|]. subst b. discriminate.
      * exact Hi.
      * exact Hc.
      * exists u, v. split; [|exact Hu]. rewrite <- E2, <- app_assoc. reflexivity.
Qed.
Lemma armor_unfinished b body e tail p : ~ In newline b -> ~ In x2d body -> ~ In carriage_return e -> ~ beginning e (b ++ [newline]) ->
  length e <= length b -> hd_error e = Some x2d ->
  beginning p (b ++ [newline] ++ body ++ [newline] ++ e ++ tail) -> length p < length (b ++ [newline] ++ body ++ [newline] ++ e) ->
  armor_decode b e p = Err EInvalidFormat.
Proof.
  intros Hb Hd Hc Hbe Hlen He (r & Ht) Hl. unfold armor_decode. destruct (negb _); [reflexivity|].
  rewrite armor_body_err; [reflexivity|]. intros Hi. assert (Hi' : In e (lines p)) by (destruct (lines p); [destruct Hi|right; exact Hi]).
  destruct e as [|d e]; [discriminate|]. cbn in He. injection He as ->.
  destruct (lines_inside p [] (x2d :: e) (fun x => x) Hi' Hc) as (u & v & E & Hu). cbn [app] in E. subst p.
  destruct Hu as [-> |(u' & ->)].
  - (* at the start *) cbn [app] in Ht. apply Hbe. exists (firstn (length (b ++ [newline]) - length (x2d :: e)) (v ++ r)).
    transitivity (firstn (length (b ++ [newline])) (b ++ [newline] ++ body ++ [newline] ++ (x2d :: e) ++ tail)).
    + rewrite app_assoc. rewrite firstn_app, firstn_all, Nat.sub_diag. cbn [firstn]. rewrite app_nil_r. reflexivity.
    + cbn [app] in *. rewrite Ht. change (x2d :: (e ++ v) ++ r) with ((x2d :: e ++ v) ++ r). change (x2d :: e ++ v) with ((x2d :: e) ++ v).
      rewrite <- app_assoc. rewrite firstn_app, (firstn_all2 (x2d :: e)); [reflexivity|]. rewrite app_length. cbn [length] in *. lia.
  - rewrite <- !app_assoc in Ht. cbn [app] in Ht. symmetry in Ht.
    destruct (app_past newline u' _ b _ Ht Hb) as (c & -> & E2).
    assert (E3 : (c ++ [newline]) ++ x2d :: ((e ++ v) ++ r) = (newline :: body ++ [newline]) ++ x2d :: e ++ tail).
    { rewrite <- !app_assoc. cbn [app]. rewrite <- !app_assoc in *. cbn [app] in *. symmetry. exact E2. }
    destruct (app_past x2d _ _ _ _ E3) as (c2 & E4 & E5).
    { intros [X|X]; [discriminate|]. apply in_app_or in X. destruct X as [X|[X|[]]]; [exact (Hd X)|discriminate]. }
    apply f_equal with (f := @length byte) in E4. rewrite !app_length in Hl. cbn [length] in Hl. rewrite !app_length in Hl. cbn [length] in Hl.
    rewrite !app_length in E4. cbn [length] in E4. rewrite app_length in E4. cbn [length] in E4. lia.
Qed.

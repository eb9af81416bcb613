(** Facts about AllowedSigner.v: files, printing. *)
From Coq Require Import Lia.
From Verif Require Import Base BaseFacts Str StrFacts SpecWire SpecText KeyType PubKeyType PubKey PubKeyFacts Chrono AllowedSigner SpecSigner ChronoFacts SignerFacts EntryFacts.

(** ** Trimming *)
Lemma all_ws_skip bs l : all_ws (bs ++ l) (length bs) = all_ws l 0.
Proof. induction bs as [|b bs IH]; [reflexivity|]. exact IH. Qed.
Lemma all_ws_char c bs l : utf8_char c bs -> ws_scalar c -> all_ws (bs ++ l) 0 = all_ws l 0.
Proof.
  intros H Hw. destruct (ws_len_char c bs l H) as [[_ E]|[N _]]; [|contradiction].
  destruct bs as [|b bs]; [apply utf8_char_nonempty in H; congruence|].
  cbn [app all_ws] in *. rewrite E. cbn [length]. apply all_ws_skip.
Qed.
Lemma all_ws_iff l : all_ws l 0 = true <-> ws_run l.
Proof.
  split.
  - remember (length l) as n eqn:En. assert (Hn : length l <= n) by lia. clear En. revert l Hn.
    induction n as [|n IH]; intros l Hn H.
    + destruct l; [constructor|cbn in Hn; lia].
    + destruct (ws_len l) as [|k] eqn:E.
      * destruct l as [|b l]; [constructor|]. cbn [all_ws] in H. rewrite E in H. discriminate.
      * destruct (ws_len_pos l k E) as (c & bs & l' & -> & Hl & Hc & Hw).
        rewrite (all_ws_char c bs) in H by assumption. econstructor; [exact Hc|exact Hw|]. apply IH; [rewrite app_length in Hn; lia|exact H].
  - induction 1 as [|c bs l Hc Hw _ IH]; [reflexivity|]. rewrite (all_ws_char c bs) by assumption. exact IH.
Qed.
Lemma char_tail c bs x b y : utf8_char c bs -> bs = x ++ b :: y -> x <> [] -> cbyte b.
Proof.
  intros H E Hx. destruct H; repeat (destruct x as [|? x]; cbn [app] in E; try congruence; try (injection E; intros; subst; assumption)).
Qed.
Lemma char_lead c b y : utf8_char c (b :: y) -> ~ cbyte b.
Proof. intros H. inversion H; subst; unfold cbyte in *; lia. Qed.
Lemma run_lead b p : ws_run (b :: p) -> ~ cbyte b.
Proof.
  intros H. inversion H as [|c bs l Hc Hw Hl E]. destruct bs as [|b' bs]; [apply utf8_char_nonempty in Hc; congruence|].
  injection E as -> _. eapply char_lead, Hc.
Qed.
(** A character of white space in front of [x ++ p] does not reach into the run [p]. *)
Lemma char_inside c bs l x p : utf8_char c bs -> bs ++ l = x ++ p -> ws_run p -> x <> [] -> exists x', x = bs ++ x' /\ l = x' ++ p.
Proof.
  intros Hc E Hp Hx. destruct (le_lt_dec (length bs) (length x)) as [L|L].
  - exists (skipn (length bs) x). assert (F : firstn (length bs) x = bs).
    { assert (A : firstn (length bs) (bs ++ l) = firstn (length bs) (x ++ p)) by (rewrite E; reflexivity).
      rewrite firstn_app_exact in A by reflexivity. rewrite firstn_app in A. replace (length bs - length x) with 0 in A by lia.
      cbn [firstn] in A. rewrite app_nil_r in A. symmetry. exact A. }
    assert (X : x = bs ++ skipn (length bs) x) by (rewrite <- F at 1; symmetry; apply firstn_skipn).
    split; [exact X|]. rewrite X, <- app_assoc in E. apply app_inv_head in E. exact E.
  - exfalso. assert (F : x = firstn (length x) bs).
    { assert (A : firstn (length x) (bs ++ l) = firstn (length x) (x ++ p)) by (rewrite E; reflexivity).
      rewrite (firstn_app_exact x) in A by reflexivity. rewrite firstn_app in A. replace (length x - length bs) with 0 in A by lia.
      cbn [firstn] in A. rewrite app_nil_r in A. symmetry. exact A. }
    pose proof (firstn_skipn (length x) bs) as G. rewrite <- F in G. destruct (skipn (length x) bs) as [|b y] eqn:Es.
    + rewrite app_nil_r in G. rewrite <- G in L. lia.
    + assert (B : cbyte b) by (eapply char_tail; [exact Hc|symmetry; exact G|exact Hx]).
      rewrite <- G, <- app_assoc in E. apply app_inv_head in E. subst p. exact (run_lead _ _ Hp B).
Qed.
Lemma run_split q : ws_run q -> forall x p, q = x ++ p -> ws_run p -> ws_run x.
Proof.
  induction 1 as [|c bs l Hc Hw _ IH]; intros x p E Hp.
  - destruct x; [constructor|discriminate].
  - destruct x as [|b x]; [constructor|]. destruct (char_inside c bs l (b :: x) p Hc E Hp) as (x' & -> & ->); [discriminate|].
    econstructor; [exact Hc|exact Hw|]. eapply IH; [reflexivity|exact Hp].
Qed.
Lemma trim_end_iff l t : trim_end l = t <->
  exists post, l = t ++ post /\ ws_run post /\ (forall a b, t = a ++ b -> ws_run b -> b = []).
Proof.
  assert (G : exists post, l = trim_end l ++ post /\ ws_run post /\ (forall a b, trim_end l = a ++ b -> ws_run b -> b = [])).
  { induction l as [|b l (post & E & Hp & Hb)].
    - exists []. split; [reflexivity|]. split; [constructor|]. intros a b Ha _. destruct a, b; try discriminate; reflexivity.
    - cbn [trim_end]. destruct (all_ws (b :: l) 0) eqn:Ew.
      + apply all_ws_iff in Ew. exists (b :: l). split; [reflexivity|]. split; [exact Ew|]. intros x y Ha _. destruct x, y; try discriminate; reflexivity.
      + exists post. cbn [app]. rewrite <- E. split; [reflexivity|]. split; [exact Hp|]. intros x y Ha Hy. destruct x as [|z x].
        * exfalso. cbn [app] in Ha. subst y. assert (X : ws_run (b :: l)).
          { rewrite E. change (b :: trim_end l ++ post) with ((b :: trim_end l) ++ post). apply ws_run_app; assumption. }
          apply all_ws_iff in X. congruence.
        * injection Ha as -> Ha. eapply Hb; [exact Ha|exact Hy]. }
  split; [intros <-; exact G|]. intros (post & E & Hp & Hb). destruct G as (post' & E' & Hp' & Hb').
  rewrite E in E' at 1. destruct (le_lt_dec (length t) (length (trim_end l))) as [L|L].
  - assert (X : exists x, trim_end l = t ++ x /\ post = x ++ post').
    { clear -E' L. revert E' L. generalize (trim_end l). induction t as [|b t IH]; intros u E L; [exists u; auto|].
      destruct u as [|b' u]; [cbn in L; lia|]. injection E as -> E. destruct (IH u E) as (x & -> & ->); [cbn in L; lia|]. exists x. auto. }
    destruct X as (x & X1 & X2). assert (x = []) as ->; [|rewrite X1, app_nil_r; reflexivity].
    eapply Hb'; [exact X1|]. eapply run_split; [exact Hp|exact X2|exact Hp'].
  - assert (X : exists x, t = trim_end l ++ x /\ post' = x ++ post).
    { clear -E' L. revert E' L. generalize (trim_end l). intros u. revert u. induction t as [|b t IH]; intros u E L; [cbn in L; lia|].
      destruct u as [|b' u]; [exists (b :: t); auto|]. injection E as -> E. destruct (IH u E) as (x & -> & ->); [cbn in L; lia|]. exists x. auto. }
    destruct X as (x & X1 & X2). assert (x = []) as ->; [|rewrite X1, app_nil_r; reflexivity].
    eapply Hb; [exact X1|]. eapply run_split; [exact Hp'|exact X2|exact Hp].
Qed.
Lemma trim_start_len l : ws_len (trim_start l) = 0.
Proof.
  remember (length l) as n eqn:En. assert (Hn : length l <= n) by lia. clear En. revert l Hn.
  induction n as [|n IH]; intros l Hn.
  - destruct l; [reflexivity|cbn in Hn; lia].
  - destruct (ws_len l) as [|k] eqn:E; [rewrite trim_start_id by exact E; exact E|].
    destruct (ws_len_pos l k E) as (c & bs & l' & -> & Hl & Hc & Hw). rewrite (trim_start_char c bs) by assumption.
    apply IH. rewrite app_length in Hn. lia.
Qed.
Lemma run_ws_len a b : ws_run a -> a <> [] -> ws_len (a ++ b) <> 0.
Proof.
  intros H Ha. destruct H as [|c bs l Hc Hw Hl]; [congruence|]. rewrite <- app_assoc.
  destruct (ws_len_char c bs (l ++ b) Hc) as [[_ E]|[N _]]; [|contradiction]. rewrite E.
  apply utf8_char_nonempty in Hc. destruct bs; [congruence|discriminate].
Qed.
Lemma trim_iff' l t : trim l = t <-> stripped l t.
Proof.
  unfold trim, stripped. rewrite trim_end_iff. split.
  - intros (post & E & Hp & Hb). destruct (trim_start_pre l) as (pre & Hpre & El). exists pre, post.
    split; [rewrite <- E; exact El|]. split; [exact Hpre|]. split; [exact Hp|]. split; [|exact Hb].
    intros a b Ea Ha. destruct a as [|z a]; [reflexivity|exfalso]. pose proof (trim_start_len l) as Hz.
    rewrite E, Ea, <- app_assoc in Hz. apply (run_ws_len _ _ Ha) in Hz; [exact Hz|discriminate].
  - intros (pre & post & -> & Hpre & Hp & Ha & Hb). exists (match t with [] => [] | _ => post end).
    rewrite trim_start_run by exact Hpre. destruct t as [|z t].
    + cbn [app]. split; [|split; [constructor|exact Hb]]. clear -Hp. rewrite <- (app_nil_r post), trim_start_run by exact Hp. reflexivity.
    + split; [|split; [exact Hp|exact Hb]]. apply trim_start_id. destruct (ws_len ((z :: t) ++ post)) as [|k] eqn:E; [reflexivity|exfalso].
      destruct (ws_len_pos _ _ E) as (c & bs & l' & El & Hl & Hc & Hw).
      destruct (char_inside c bs l' (z :: t) post Hc) as (x' & Ex & _); [symmetry; exact El|exact Hp|discriminate|].
      assert (R : ws_run bs) by (rewrite <- (app_nil_r bs); econstructor; [exact Hc|exact Hw|constructor]).
      pose proof (Ha bs x' Ex R). subst bs. discriminate.
Qed.
Lemma stripped_total l : exists t, stripped l t.
Proof. exists (trim l). apply trim_iff'. reflexivity. Qed.
Lemma no_entry_iff l : negb (nonempty (trim l)) || starts_with_byte pound (trim l) = true <-> no_entry l.
Proof.
  unfold no_entry. rewrite orb_true_iff, <- trim_iff'. split.
  - intros [H|H].
    + left. destruct (trim l); [reflexivity|discriminate].
    + right. destruct (trim l) as [|b c] eqn:E; [discriminate|]. cbn in H. apply byte_eqb_eq in H. change pound with x23 in H. subst b.
      exists c. apply trim_iff'. exact E.
  - intros [H|(c & H)]; [rewrite H; auto|]. apply trim_iff' in H. rewrite H. right. reflexivity.
Qed.
Lemma no_entry_dec l : {no_entry l} + {~ no_entry l}.
Proof.
  destruct (negb (nonempty (trim l)) || starts_with_byte pound (trim l)) eqn:E; [left; apply no_entry_iff, E|right].
  intros H. apply no_entry_iff in H. congruence.
Qed.

(** ** Files *)
Lemma read_lines_ok tz ls es : entries tz ls es -> forall n more,
  read_lines tz n (ls ++ more) = do? rest <- read_lines tz (n + length ls) more; Ok (es ++ rest).
Proof.
  induction 1 as [|l ls es Hl _ IH|l t a ls es Hl Ht Ha _ IH]; intros n more.
  - cbn [app length]. rewrite Nat.add_0_r. destruct (read_lines tz n more); reflexivity.
  - cbn [app length read_lines]. apply no_entry_iff in Hl. rewrite Hl, IH. rewrite Nat.add_succ_r. reflexivity.
  - cbn [app length read_lines]. cbv zeta. rewrite <- no_entry_iff in Hl. apply not_true_is_false in Hl. rewrite Hl.
    apply trim_iff' in Ht. rewrite Ht. apply accepted_iff in Ha. rewrite Ha, IH, Nat.add_succ_r. cbn [Nat.add].
    destruct (read_lines tz (S (n + length ls)) more); reflexivity.
Qed.
Lemma lines_cases tz ls : (exists es, entries tz ls es)
  \/ exists pre l t post es, ls = pre ++ l :: post /\ entries tz pre es /\ ~ no_entry l /\ stripped l t
       /\ ((exists e, rejected_line tz t e) \/ panicking_line tz t).
Proof.
  induction ls as [|l ls IH]; [left; exists []; constructor|].
  assert (K : (exists a t, ~ no_entry l /\ stripped l t /\ accepted_line tz t a) \/ no_entry l
     \/ exists t, ~ no_entry l /\ stripped l t /\ ((exists e, rejected_line tz t e) \/ panicking_line tz t)).
  { destruct (no_entry_dec l) as [H|H]; [auto|]. destruct (stripped_total l) as (t & Ht).
    destruct (line_total tz t) as [(a & Ha)|D]; [left; eauto|right; right; eauto]. }
  destruct K as [(a & t & K1 & K2 & K3)|[K|(t & K1 & K2 & K3)]].
  - destruct IH as [(es & He)|(pre & l' & t' & post & es & -> & He & D)]; [left; eexists; eapply En_entry; eauto|].
    right. exists (l :: pre), l', t', post, (a :: es). split; [reflexivity|]. split; [eapply En_entry; eauto|exact D].
  - destruct IH as [(es & He)|(pre & l' & t' & post & es & -> & He & D)]; [left; eexists; eapply En_skip; eauto|].
    right. exists (l :: pre), l', t', post, es. split; [reflexivity|]. split; [eapply En_skip; eauto|exact D].
  - right. exists [], l, t, ls, []. split; [reflexivity|]. split; [constructor|auto].
Qed.
Lemma read_lines_err tz pre es l t post e : entries tz pre es -> ~ no_entry l -> stripped l t -> rejected_line tz t e ->
  read_lines tz 0 (pre ++ l :: post) = Err (EInvalidAllowedSigners e (length pre)).
Proof.
  intros He Hl Ht Hr. rewrite (read_lines_ok tz pre es He). cbn [read_lines Nat.add]. cbv zeta.
  rewrite <- no_entry_iff in Hl. apply not_true_is_false in Hl. rewrite Hl. apply trim_iff' in Ht. rewrite Ht.
  rewrite (rejected_err _ _ _ Hr). reflexivity.
Qed.
Lemma read_lines_panic tz pre es l t post : entries tz pre es -> ~ no_entry l -> stripped l t -> panicking_line tz t ->
  read_lines tz 0 (pre ++ l :: post) = Panic.
Proof.
  intros He Hl Ht Hr. rewrite (read_lines_ok tz pre es He). cbn [read_lines Nat.add]. cbv zeta.
  rewrite <- no_entry_iff in Hl. apply not_true_is_false in Hl. rewrite Hl. apply trim_iff' in Ht. rewrite Ht.
  rewrite (panicking_ok _ _ Hr). reflexivity.
Qed.
Lemma read_lines_all tz ls es : entries tz ls es -> read_lines tz 0 ls = Ok es.
Proof.
  intros H. rewrite <- (app_nil_r ls), (read_lines_ok tz ls es H). cbn [read_lines bind]. rewrite app_nil_r. reflexivity.
Qed.

(** ** Decimal numbers *)
Lemma digit_byte n : (n < 10)%N -> digit (n2b (48 + n)) /\ (Z.of_N (Byte.to_N (n2b (48 + n))) - 48 = Z.of_N n)%Z.
Proof.
  intros H. unfold digit. change Byte.to_N with b2n. rewrite b2n_n2b, N.mod_small by lia. split; lia.
Qed.
Lemma decimal_aux_spec f : forall n acc, (n < 10 ^ N.of_nat (S f))%N ->
  exists ds, decimal_aux (S f) n acc = ds ++ acc /\ Forall digit ds /\ dec ds = Z.of_N n /\ ds <> []
    /\ (n <> 0 -> 10 ^ N.of_nat (length ds - 1) <= n)%N /\ (n < 10 ^ N.of_nat (length ds))%N.
Proof.
  induction f as [|f IH]; intros n acc H.
  - change (10 ^ N.of_nat 1)%N with 10%N in H. destruct (digit_byte n H) as [D1 D2].
    exists [n2b (48 + n)]. cbn [decimal_aux]. rewrite N.mod_small by lia. replace (n <? 10)%N with true by lia.
    split; [reflexivity|]. split; [constructor; [exact D1|constructor]|]. split; [unfold dec; cbn [fold_left]; lia|]. split; [discriminate|].
    cbn [length]. change (10 ^ N.of_nat (1 - 1))%N with 1%N. change (10 ^ N.of_nat 1)%N with 10%N. lia.
  - cbn [decimal_aux]. destruct (n <? 10)%N eqn:E.
    + apply N.ltb_lt in E. destruct (digit_byte n E) as [D1 D2]. exists [n2b (48 + n)]. rewrite N.mod_small by lia.
      split; [reflexivity|]. split; [constructor; [exact D1|constructor]|]. split; [unfold dec; cbn [fold_left]; lia|]. split; [discriminate|].
      cbn [length]. change (10 ^ N.of_nat (1 - 1))%N with 1%N. change (10 ^ N.of_nat 1)%N with 10%N. lia.
    + apply N.ltb_ge in E. assert (Hd : (n mod 10 < 10)%N) by (apply N.mod_lt; lia).
      destruct (digit_byte _ Hd) as [D1 D2].
      assert (Hn : (n / 10 < 10 ^ N.of_nat (S f))%N).
      { apply N.div_lt_upper_bound; [lia|]. rewrite (Nat2N.inj_succ (S f)), N.pow_succ_r' in H. exact H. }
      destruct (IH (n / 10)%N (n2b (48 + n mod 10) :: acc) Hn) as (ds & E1 & E2 & E3 & E4 & E5 & E6).
      cbn [decimal_aux] in E1. exists (ds ++ [n2b (48 + n mod 10)]). rewrite E1, <- app_assoc. split; [reflexivity|].
      split; [apply Forall_app; auto|]. split.
      * unfold dec in *. rewrite fold_left_app. cbn [fold_left]. rewrite E3, D2. rewrite (N.div_mod n 10) at 3 by lia. lia.
      * split; [destruct ds; discriminate|]. rewrite app_length. cbn [length].
        assert (L : length ds = S (length ds - 1)) by (destruct ds; [congruence|cbn; lia]).
        pose proof (N.div_mod n 10 ltac:(lia)) as Dm. split.
        -- intros _. replace (length ds + 1 - 1) with (length ds) by lia. rewrite L, Nat2N.inj_succ, N.pow_succ_r'.
           assert (n / 10 <> 0)%N by (intros Z0; rewrite Z0 in Dm; lia). specialize (E5 H0). lia.
        -- rewrite Nat.add_1_r, Nat2N.inj_succ, N.pow_succ_r'. lia.
Qed.
Lemma decimal_spec n : exists ds, decimal n = ds /\ Forall digit ds /\ dec ds = Z.of_N n /\ ds <> []
    /\ (n <> 0 -> 10 ^ N.of_nat (length ds - 1) <= n)%N /\ (n < 10 ^ N.of_nat (length ds))%N.
Proof.
  unfold decimal. destruct (decimal_aux_spec (N.to_nat (N.size n)) n []) as (ds & E & H).
  - rewrite Nat2N.inj_succ, N2Nat.id. apply N.lt_le_trans with (2 ^ N.size n)%N; [apply N.size_gt|].
    apply N.le_trans with (10 ^ N.size n)%N; [apply N.pow_le_mono_l; lia|]. apply N.pow_le_mono_r; lia.
  - exists ds. rewrite app_nil_r in E. auto.
Qed.
Lemma dec_bounds ds : Forall digit ds -> (0 <= dec ds < 10 ^ Z.of_nat (length ds))%Z.
Proof.
  induction ds as [|d ds IH] using rev_ind; intros H; [cbn; lia|]. apply Forall_app in H. destruct H as [H Hd]. specialize (IH H).
  apply Forall_cons_iff in Hd. destruct Hd as [Hd _]. unfold digit in Hd. unfold dec in *. rewrite fold_left_app, app_length. cbn [fold_left length].
  replace (Z.of_nat (length ds + 1)) with (Z.succ (Z.of_nat (length ds))) by lia. rewrite Z.pow_succ_r by lia. lia.
Qed.
Lemma display_z_decimal x : decimal_text x (display_z x).
Proof.
  destruct (decimal_spec (Z.abs_N x)) as (ds & E & H & Hd & Hn & H1 & _). exists ds. split; [exact H|]. split; [exact Hn|]. split.
  - intros b r ->. apply Forall_cons_iff in H. destruct H as [_ H]. pose proof (dec_bounds _ H) as B. cbn [length] in *.
    change (dec (x30 :: b :: r)) with (dec (b :: r)) in Hd. replace (S (S (length r)) - 1) with (S (length r)) in H1 by lia.
    destruct (N.eq_dec (Z.abs_N x) 0) as [Z0|Z0].
    + rewrite Z0 in E. discriminate.
    + specialize (H1 Z0). apply N2Z.inj_le in H1. rewrite N2Z.inj_pow, nat_N_Z in H1. change (Z.of_N 10) with 10%Z in H1. lia.
  - unfold display_z. rewrite E. destruct (Z.ltb_spec x 0); [right|left]; repeat split; lia || (rewrite Hd, N2Z.inj_abs_N; lia).
Qed.

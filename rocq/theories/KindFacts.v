(** Lemmas on texts that two readers could accept. *)
From Coq Require Import Lia.
From Verif Require Import Base BaseFacts SpecWire SpecText SpecBase64 Utf8 Utf8Facts Base64 Base64Facts Str StrFacts KeyType KeyTypeFacts
  PubKeyType PubKey PubKeyFacts Chrono AllowedSigner SpecSigner SignerFacts EntryFacts FileFacts TbsFacts SpecFiles CutFacts CutSignerFacts.

(** ** Words *)
Lemma split_ws_between a c bs r : utf8_text a -> utf8_char c bs -> ws_scalar c ->
  forall cur, split_ws_aux (a ++ bs ++ r) 0 cur = split_ws_aux a 0 cur ++ split_whitespace r.
Proof.
  intros Ha Hc Hs. induction Ha as [|d ds l Hd Hl IH]; intros cur.
  - cbn [List.app]. rewrite (split_ws_char_ws c) by assumption. destruct cur; reflexivity.
  - rewrite <- app_assoc. destruct (ws_scalar_dec d) as [Hw|Hw].
    + rewrite (split_ws_char_ws d ds (l ++ bs ++ r)), (split_ws_char_ws d ds l) by assumption. rewrite IH. destruct cur; reflexivity.
    + rewrite (split_ws_char_no d ds (l ++ bs ++ r)), (split_ws_char_no d ds l) by assumption. apply IH.
Qed.
Lemma words_between a c bs r : utf8_text a -> utf8_char c bs -> ws_scalar c ->
  split_whitespace (a ++ bs ++ r) = split_whitespace a ++ split_whitespace r.
Proof. intros Ha Hc Hs. exact (split_ws_between a c bs r Ha Hc Hs []). Qed.
Lemma words_space a r : utf8_text a -> split_whitespace (a ++ x20 :: r) = split_whitespace a ++ split_whitespace r.
Proof. intros Ha. apply (words_between a 32 [x20] r Ha space_char space_ws). Qed.
Lemma words_run s l : ws_run s -> split_whitespace (s ++ l) = split_whitespace l.
Proof. intros H. unfold split_whitespace. now apply split_ws_run. Qed.
Lemma spaces_run n : ws_run (repeat x20 n).
Proof. induction n as [|n IH]; [constructor|]. apply (WsR_cons 32 [x20]); [exact space_char|exact space_ws|exact IH]. Qed.
Lemma words_blank s : ws_run s -> split_whitespace s = [].
Proof. intros H. rewrite <- (app_nil_r s). rewrite words_run by exact H. reflexivity. Qed.

Lemma nl_char : utf8_char 10 [x0a]. Proof. apply (Utf8_1 x0a). reflexivity. Qed.
Lemma nl_ws : ws_scalar 10. Proof. unfold ws_scalar. lia. Qed.
Lemma cr_char : utf8_char 13 [x0d]. Proof. apply (Utf8_1 x0d). reflexivity. Qed.
Lemma cr_ws : ws_scalar 13. Proof. unfold ws_scalar. lia. Qed.

Lemma words_lines s ls : lines_of s ls -> utf8_text s -> split_whitespace s = concat (map split_whitespace ls) /\ Forall utf8_text ls.
Proof.
  induction 1 as [|l Hl Hn|l rest ls Hl Hr IH|l rest ls Hl Hn Hr IH]; intros Hu; cbn [map concat].
  - split; [reflexivity|constructor].
  - rewrite app_nil_r. auto.
  - destruct (utf8_around _ Hu l x0d (x0a :: rest) eq_refl eq_refl) as [U1 U2].
    destruct (utf8_around _ U2 [] x0a rest eq_refl eq_refl) as [_ U3]. destruct (IH U3) as [E F]. split; [|constructor; assumption].
    change (l ++ x0d :: x0a :: rest) with (l ++ [x0d] ++ ([] ++ [x0a] ++ rest)).
    rewrite (words_between l 13 [x0d]) by first [exact U1|exact cr_char|exact cr_ws].
    rewrite (words_between [] 10 [x0a]) by first [exact nl_char|exact nl_ws|exact Utf8_nil]. cbn [split_whitespace split_ws_aux flush List.app].
    now rewrite E.
  - destruct (utf8_around _ Hu l x0a rest eq_refl eq_refl) as [U1 U3]. destruct (IH U3) as [E F]. split; [|constructor; assumption].
    change (l ++ x0a :: rest) with (l ++ [x0a] ++ rest).
    rewrite (words_between l 10 [x0a]) by first [exact U1|exact nl_char|exact nl_ws]. now rewrite E.
Qed.

Lemma text_front s : utf8_text s -> forall x p, s = x ++ p -> utf8_text p -> utf8_text x.
Proof.
  induction 1 as [|c bs l Hc Hl IH]; intros x p E Hp.
  - destruct x; [constructor|discriminate].
  - destruct x as [|b x]; [constructor|].
    destruct (char_inside_text c bs l (b :: x) p Hc E Hp ltac:(discriminate)) as (x' & -> & El).
    apply (Utf8_cons c); [exact Hc|]. apply (IH x' p El Hp).
Qed.

Lemma words_stripped l t : utf8_text l -> stripped l t -> split_whitespace l = split_whitespace t /\ utf8_text t.
Proof.
  intros Hu (pre & post & -> & Hpre & Hpost & _).
  pose proof (utf8_text_rest _ (run_text _ Hpre) _ Hu) as U.
  pose proof (text_front _ U t post eq_refl (run_text _ Hpost)) as Ut. split; [|exact Ut].
  rewrite words_run by exact Hpre. destruct post as [|b post]; [now rewrite app_nil_r|].
  destruct (run_first _ Hpost ltac:(discriminate)) as (c & bs & z & Hc & Hs & E). rewrite E.
  rewrite (words_between t c bs z Ut Hc Hs). rewrite (words_blank z); [apply app_nil_r|].
  rewrite E in Hpost. apply (run_rest bs (run_char _ _ Hc Hs) z Hpost).
Qed.

(** A word starts with the first character that is not white space. *)
Lemma words_start b r : graphic b = true -> exists w ws, split_whitespace (b :: r) = (b :: w) :: ws.
Proof.
  intros Hb. unfold graphic in Hb. unfold split_whitespace. change (b :: r) with ([b] ++ r).
  rewrite (split_ws_char_no (b2n b)); [|apply (Utf8_1 b); change Byte.to_N with b2n; lia|unfold ws_scalar; lia].
  cbn [List.app]. destruct (split_ws_cur r 0 [b] ltac:(discriminate)) as (w & ws & ->). cbn [List.app]. eauto.
Qed.
Lemma words_nonempty s w ws : utf8_text s -> split_whitespace s = w :: ws -> w <> [].
Proof.
  intros Hu E. apply split_whitespace_words in Hu. rewrite E in Hu.
  inversion Hu as [|? ? ? [_ H]|? ? ? ? ? ? ? [_ H]]; subst; exact H.
Qed.

(** ** Names of key types *)
Lemma name_start n kt : kt_from_name n = Ok kt -> ~ In x23 n /\ exists b r, n = b :: r /\ (b = x73 \/ b = x65 \/ b = x72).
Proof.
  intros H. apply kt_from_name_ok in H. destruct H as [H ->].
  revert kt H. apply (known_forall (fun kt => ~ In x23 (kt_name kt) /\ exists b r, kt_name kt = b :: r /\ (b = x73 \/ b = x65 \/ b = x72))).
  unfold key_types.
  repeat (apply Forall_cons; [split; [intros H; cbn in H; repeat (destruct H as [H|H]; [discriminate H|]); exact H
    |cbn [kt_name]; do 2 eexists; split; [vm_compute; reflexivity|auto]]|]). apply Forall_nil.
Qed.
Lemma name_size n kt : kt_from_name n = Ok kt -> length n < 256.
Proof.
  intros H. apply kt_from_name_ok in H. destruct H as [H ->].
  revert kt H. apply (known_forall (fun kt => length (kt_name kt) < 256)).
  unfold key_types. repeat (apply Forall_cons; [cbn; lia|]). apply Forall_nil.
Qed.
Lemma field_zero n : length n < 256 -> exists a b c r, field n = x00 :: a :: b :: c :: r.
Proof.
  intros H. unfold field, be32, size. do 4 eexists. cbn [List.app].
  replace (n2b (N.of_nat (length n) / 16777216)) with x00; [reflexivity|].
  rewrite N.div_small by lia. reflexivity.
Qed.
(** Base64 of data that starts with a zero byte starts with [A]. *)
Lemma data_start t b1 b2 b3 r : b64_decode t = Some (x00 :: b1 :: b2 :: b3 :: r) -> exists t', t = x41 :: t'.
Proof.
  intros H. apply b64_decode_iff in H. destruct H as (k & H).
  pose proof (base64_text_unique _ _ _ H (b64_encode_text _)) as E. cbn [b64_encode] in E.
  replace ((b2n x00 * 65536 + b2n b1 * 256 + b2n b2) / 262144)%N with 0%N in E.
  2:{ symmetry. apply N.div_small. pose proof (b2n_lt b1). pose proof (b2n_lt b2). change (b2n x00) with 0%N. lia. }
  destruct t as [|c t]; [destruct k; discriminate|]. cbn [List.app] in E. injection E as -> _. exists t. reflexivity.
Qed.
Lemma field_data_start t n kt r : kt_from_name n = Ok kt -> b64_decode t = Some (field n ++ r) -> exists t', t = x41 :: t'.
Proof.
  intros Hk H. destruct (field_zero n (name_size _ _ Hk)) as (a & b & c & r' & E). rewrite E in H. eapply data_start, H.
Qed.

(** ** A line of an allowed_signers file with a public key or certificate in front *)
Lemma commas_no_ws l : Forall no_ws l -> no_ws (commas l).
Proof.
  induction 1 as [|x l Hx Hl IH]; [constructor|]. cbn [commas]. destruct l as [|y l]; [exact Hx|].
  apply no_ws_app; [exact Hx|]. apply (no_ws_app [x2c]); [apply graphic_no_ws; reflexivity|exact IH].
Qed.
Lemma quotes_no_ws n : no_ws (repeat x22 n).
Proof. apply graphic_no_ws. induction n as [|n IH]; [reflexivity|exact IH]. Qed.
Lemma no_ws_text w : no_ws w -> utf8_text w.
Proof. induction 1 as [|c bs l Hc _ _ IH]; [constructor|]. eapply Utf8_cons; eauto. Qed.

Lemma front_text R p rest : utf8_text R -> R = p ++ rest -> word_ends rest -> utf8_text p.
Proof.
  intros U -> [->|[(r & ->)|(r & ->)]]; [now rewrite app_nil_r in U| |].
  - apply (utf8_around _ U p x20 r eq_refl eq_refl).
  - apply (utf8_around _ U p x23 r eq_refl eq_refl).
Qed.

Lemma option_start tz o w o' : option_word tz o w o' ->
  exists b r, w = b :: r /\ graphic b = true /\ b <> x41.
Proof.
  assert (G : forall name v n, option_parts w name v -> named name n -> In n option_names ->
    exists b r, w = b :: r /\ graphic b = true /\ b <> x41).
  { intros name v n (v' & _ & _ & Hw) Hn Hi.
    assert (Hs : exists b r, name = b :: r /\ graphic b = true /\ b <> x41).
    { unfold option_names in Hi. cbn [In] in Hi.
      assert (S : exists c n', n = c :: n' /\ (c = x63 \/ c = x6e \/ c = x76)).
      { repeat (destruct Hi as [<-|Hi]; [do 2 eexists; split; [vm_compute; reflexivity|auto]|]). destruct Hi. }
      destruct S as (c & n' & -> & Hc). inversion Hn as [|b c' r n'' Hb _ E1 E2]; subst. exists b, r.
      split; [reflexivity|]. change Byte.to_N with b2n in Hb. unfold graphic.
      assert (Hcn : (97 < b2n c <= 122)%N) by (destruct Hc as [->|[->| ->]]; cbn; lia).
      destruct Hb as [->|Hb].
      - split; [lia|]. intros ->. cbn in Hcn. lia.
      - split; [lia|]. intros ->. change (b2n x41) with 65%N in Hb. destruct Hc as [->|[->| ->]]; cbn in Hb; lia. }
    destruct Hs as (b & r & -> & Hb). destruct Hw as [->|[-> _]]; cbn [List.app]; eauto. }
  intros H. destruct H; eapply G; eauto; cbn; tauto.
Qed.

Lemma line_not_key tz t a label data more rest :
  utf8_text t -> accepted_line tz t a -> Forall no_ws (as_principals a) ->
  split_whitespace t ++ more = label :: data :: rest ->
  (exists kt, kt_from_name label = Ok kt) -> (exists d, data = x41 :: d) -> False.
Proof.
  intros U (_ & pw & pt & ows & kt & kd & o & Hw & (i & j & Epw & _ & _) & (_ & _ & Ept) & _ & Ho & _ & Hpk & _) Hp E (ktl & Hl) (d & Hd).
  assert (Wpw : no_ws pw).
  { rewrite Epw, Ept. apply no_ws_app; [apply quotes_no_ws|]. apply no_ws_app; [apply commas_no_ws, Hp|apply quotes_no_ws]. }
  inversion Hw as [|n w R ws Hlw He Hrest E1 E2]; subst w ws t.
  assert (Wword : word pw) by (split; [exact Wpw|apply Hlw]).
  rewrite words_run in E by apply spaces_run.
  pose proof (utf8_text_rest _ (run_text _ (spaces_run n)) _ U) as U1.
  pose proof (utf8_text_rest _ (no_ws_text _ Wpw) _ U1) as UR.
  destruct He as [->|[(r & ->)|(r & ->)]].
  - inversion Hrest as [l Hn El Ew|m w R' ws' Hlw' _ _ El Ew].
    + destruct ows; discriminate.
    + destruct Hlw' as [Hne _]. destruct m; [|discriminate]. destruct w; [congruence|discriminate].
  - (* a space follows *)
    change (pw ++ x20 :: r) with (pw ++ [x20] ++ r) in E. rewrite split_words_space in E by exact Wword.
    cbn [List.app] in E. injection E as _ E.
    assert (ER : split_whitespace (x20 :: r) = split_whitespace r) by (apply (words_run [x20] r (spaces_run 1))).
    rewrite <- ER in E. remember (x20 :: r) as R eqn:HeqR. clear HeqR ER r U1.
    assert (A : forall p f fs, utf8_text p -> beginning p R -> split_whitespace p = f :: fs -> exists f', f = x41 :: f').
    { intros p f fs Up Bp Ef. pose proof (cut_whitespace p R Up Bp) as Hc. rewrite Ef in Hc.
      pose proof (words_nonempty p f fs Up Ef) as Hne.
      destruct f as [|x f]; [congruence|].
      destruct (split_whitespace R) as [|g gs]; [inversion Hc|]. cbn [List.app] in E. injection E as Eg _.
      rewrite Eg, Hd in Hc. inversion Hc as [|w' w ws' Hb E1 E2|w ws1 ws2 Hc' E1 E2].
      - apply beginning_cons_inv in Hb. destruct Hb as [-> _]. eauto.
      - eauto. }
    destruct ows as [|w2 ows].
    + cbn [List.app] in Hrest. inversion Hrest as [|m w R2 ws Hlw2 He2 Hrest2 E1 E2]; subst w ws.
      inversion Hrest2 as [|q w R3 ws Hlw3 He3 _ E3 E4]; subst w ws. subst R2.
      assert (Hq : exists q', q = S q').
      { destruct q as [|q]; [|eauto]. exfalso. cbn [repeat List.app] in He2.
        destruct (word_starts kd R3 Hlw3) as (b & tl & Eb & N1 & N2). rewrite Eb in He2.
        destruct He2 as [He2|[(y & He2)|(y & He2)]]; [discriminate|injection He2 as ? _; congruence|injection He2 as ? _; congruence]. }
      destruct Hq as (q' & ->).
      assert (Uk : utf8_text (kt ++ repeat x20 (S q') ++ kd)).
      { apply (utf8_text_rest _ (run_text _ (spaces_run m))). eapply (front_text R); [exact UR| |exact He3].
        rewrite <- E1. rewrite <- !app_assoc. reflexivity. }
      assert (Ukt : utf8_text kt) by (eapply (front_text _ kt (repeat x20 (S q') ++ kd) Uk eq_refl); right; left; eexists; reflexivity).
      unfold pk_from_string in Hpk. change ([x20] ++ kd) with (x20 :: kd) in Hpk. rewrite (words_space kt kd Ukt) in Hpk.
      assert (Ew : split_whitespace (kt ++ repeat x20 (S q') ++ kd) = split_whitespace kt ++ split_whitespace kd).
      { cbn [repeat List.app]. rewrite (words_space kt _ Ukt). rewrite words_run by apply spaces_run. reflexivity. }
      destruct (split_whitespace kt ++ split_whitespace kd) as [|f fs] eqn:Ef; [discriminate|].
      cbn [nth_error ok_or bind] in Hpk. destruct fs as [|f2 fs]; [discriminate|]. cbn [nth_error ok_or bind] in Hpk.
      destruct (kt_from_name f) as [kf|e|] eqn:Ekf; try discriminate.
      destruct (A (repeat x20 m ++ kt ++ repeat x20 (S q') ++ kd) f (f2 :: fs)) as (f' & ->).
      * apply utf8_text_app; [apply run_text, spaces_run|exact Uk].
      * exists R3. rewrite <- E1. rewrite <- !app_assoc. reflexivity.
      * rewrite words_run by apply spaces_run. exact Ew.
      * apply name_start in Ekf. destruct Ekf as (_ & b & y & Eb & Hb). injection Eb as <- _. destruct Hb as [Hb|[Hb|Hb]]; discriminate Hb.
    + cbn [List.app] in Hrest. inversion Hrest as [|m w R2 ws Hlw2 He2 Hrest2 E1 E2]; subst w ws.
      inversion Ho as [|o0 o1 o2 w ws Hw2 _]; subst. destruct (option_start _ _ _ _ Hw2) as (b & y & -> & Hb & Hnb).
      destruct (words_start b y Hb) as (f & fs & Ef).
      destruct (A (repeat x20 m ++ b :: y) (b :: f) fs) as (f' & Ef').
      * eapply (front_text _ _ R2 UR); [|exact He2]. rewrite <- app_assoc. reflexivity.
      * exists R2. rewrite <- app_assoc. reflexivity.
      * rewrite words_run by apply spaces_run. exact Ef.
      * injection Ef' as -> _. congruence.
  - (* a comment follows at once *)
    unfold split_whitespace in E. rewrite split_ws_word in E by exact Wpw. cbn [List.app] in E.
    change (x23 :: r) with ([x23] ++ r) in E.
    rewrite (split_ws_char_no (b2n x23) [x23]) in E; [|apply (Utf8_1 x23); reflexivity|unfold ws_scalar; cbn; lia].
    destruct (split_ws_cur r 0 (pw ++ [x23])) as (w & ws & Ew); [destruct pw; discriminate|]. rewrite Ew in E.
    cbn [List.app] in E. injection E as E _. apply name_start in Hl. destruct Hl as [Hl _]. apply Hl. rewrite <- E.
    apply in_or_app. left. apply in_or_app. right. left. reflexivity.
Qed.

(** The first entry of a file. *)
Lemma file_not_key tz ls es label data rest :
  Forall utf8_text ls -> entries tz ls es -> concat (map split_whitespace ls) = label :: data :: rest ->
  (exists kt, kt_from_name label = Ok kt) -> (exists d, data = x41 :: d) ->
  exists a es', es = a :: es' /\ ~ Forall no_ws (as_principals a).
Proof.
  intros U H. revert U. induction H as [|l ls es Hn He IH|l t a ls es Hn Hs Ha He IH]; intros U E Hl Hd; cbn [map concat] in E.
  - discriminate.
  - inversion U as [|? ? Ul Uls]; subst. destruct Hn as [Hn|(c & Hn)].
    + destruct (words_stripped l [] Ul Hn) as [Ew _]. rewrite Ew in E. apply IH; assumption.
    + destruct (words_stripped l _ Ul Hn) as [Ew _]. rewrite Ew in E.
      destruct (words_start x23 c eq_refl) as (w & ws & Ec). rewrite Ec in E. cbn [List.app] in E. injection E as <- _.
      destruct Hl as (kt & Hl). apply name_start in Hl. destruct Hl as [Hl _]. exfalso. apply Hl. now left.
  - inversion U as [|? ? Ul Uls]; subst. exists a, es. split; [reflexivity|]. intros Hp.
    destruct (words_stripped l t Ul Hs) as [Ew Ut]. rewrite Ew in E. eapply line_not_key; eauto.
Qed.

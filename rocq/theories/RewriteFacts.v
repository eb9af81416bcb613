(** Lemmas for C131: what must hold of an entry that is read back from its printed line. *)
From Coq Require Import Lia.
From Verif Require Import Base BaseFacts Reader ReaderFacts Writer WriterFacts Str StrFacts SpecWire SpecText SpecBase64 SpecKeys KeyType KeyTypeFacts
  PubKeyType PubKey PubKeyFacts Base64 Base64Facts Chrono AllowedSigner SpecSigner SpecRewrite ChronoFacts SignerFacts EntryFacts FileFacts
  TbsFacts KindFacts PropPubKey PropSigner.

(** ** The first word *)
(** A word whose text without quotes around it is [P] is [P] with quotes behind it, or [P] in quotes. *)
Lemma word_forms w P : line_word w -> unquoted w P -> P <> [] ->
  (exists j, w = P ++ repeat x22 j) \/ w = x22 :: P ++ [x22] /\ ~ In x22 P.
Proof.
  intros (_ & p & q & Hp & Hq & E) (i & j & Ew & S1 & S2) Hn. subst w. destruct i as [|i]; [left; exists j; exact Ew|]. right.
  cbn [repeat List.app] in Ew.
  assert (p = []). { destruct p as [|b p]; [reflexivity|]. injection Ew as -> _. destruct (Hp x22 (or_introl eq_refl)) as (_ & X & _). congruence. }
  subst p. cbn [List.app] in *. destruct Hq as [->|(c & Hc & ->)]; [discriminate|]. injection Ew as Ew.
  assert (i = 0).
  { destruct i as [|i]; [reflexivity|]. exfalso. cbn [repeat List.app] in Ew. destruct c as [|b c].
    - injection Ew as Ew. destruct (repeat x22 i) as [|? ?] eqn:Ei; [|discriminate]. destruct P; [congruence|discriminate].
    - injection Ew as -> _. apply Hc. left. reflexivity. }
  subst i. cbn [repeat List.app] in Ew.
  destruct j as [|j]. { exfalso. cbn [repeat] in Ew. rewrite app_nil_r in Ew. eapply S2. symmetry. exact Ew. }
  change (S j) with (1 + j) in Ew. rewrite Nat.add_comm, repeat_app, app_assoc in Ew. cbn [repeat] in Ew. apply app_inj_tail in Ew. destruct Ew as [-> _].
  assert (j = 0). { destruct j as [|j]; [reflexivity|]. exfalso. apply Hc, in_app_iff. right. left. reflexivity. }
  subst j. cbn [repeat] in *. rewrite app_nil_r in *. auto.
Qed.
(** [P] up to a space and a proper character. *)
Lemma first_word P c T pw ws : P <> [] -> c <> x20 -> c <> x22 -> line_words (P ++ x20 :: c :: T) (pw :: ws) -> unquoted pw P ->
  pw = P /\ plain_text P /\ line_words (x20 :: c :: T) ws.
Proof.
  intros Hn C1 C2 H U. inversion H as [|n w rest ws' Hw He Hl E]; subst. destruct (word_forms pw P Hw U Hn) as [(j & Ej)|[Ej Hq]].
  - assert (n = 0).
    { destruct n as [|n]; [reflexivity|]. exfalso. destruct P as [|b P]; [congruence|]. cbn [repeat List.app] in E. injection E as <- _.
      destruct (word_starts pw rest Hw) as (b & t & E & B & _). rewrite Ej in E. injection E as <- _. congruence. }
    subst n. cbn [repeat List.app] in E. rewrite Ej, <- app_assoc in E. apply app_inv_head in E.
    destruct j as [|j]; [|discriminate]. cbn [repeat List.app] in *. rewrite app_nil_r in Ej. subst pw. subst rest.
    split; [reflexivity|]. split; [|exact Hl]. destruct Hw as (_ & p & q & Hp & [->|(x & Hx & ->)] & E); [rewrite app_nil_r in E; rewrite E; exact Hp|].
    exfalso. destruct U as (i' & j' & _ & _ & S2). apply (S2 (p ++ x22 :: x)). rewrite E, <- app_assoc. reflexivity.
  - exfalso. subst pw.
    assert (G : forall n P' R, ~ In x22 P' -> repeat x20 n ++ x22 :: R = P' ++ x20 :: c :: T -> False).
    { clear - C1 C2. intros n P'. revert n. induction P' as [|b P' IH]; intros n R Hq E; cbn [List.app] in E.
      - destruct n as [|[|n]]; cbn in E; congruence.
      - destruct n as [|n]; cbn [repeat List.app] in E.
        + injection E as <- _. apply Hq. left. reflexivity.
        + injection E as <- E. eapply IH; [|exact E]. intros X. apply Hq. right. exact X. }
    eapply G; [exact Hq|]. etransitivity; [|exact E]. f_equal. cbn [List.app]. reflexivity.
Qed.
(** A word that begins with the plain text [N]. *)
Lemma plain_lead N R ws : plain_text N -> N <> [] -> line_words (x20 :: N ++ R) ws ->
  exists w rest ws', ws = (N ++ w) :: ws' /\ R = w ++ rest /\ line_word (N ++ w) /\ word_ends rest /\ line_words rest ws'.
Proof.
  intros Hp Hn H. destruct N as [|b N]; [congruence|]. destruct (Hp b (or_introl eq_refl)) as (B1 & B2 & B3).
  inversion H as [l Hl|n w rest ws' Hw He Hl E]; subst.
  - exfalso. destruct Hl as (n & [E|(c & E)]).
    + destruct n as [|[|n]]; cbn in E; congruence.
    + destruct n as [|[|n]]; cbn in E; congruence.
  - assert (n = 1).
    { destruct (word_starts w rest Hw) as (d & t & Ed & D & _). rewrite Ed in E.
      destruct n as [|[|n]]; cbn in E; [congruence|reflexivity|congruence]. }
    subst n. cbn [repeat List.app] in E. injection E as E.
    assert (L : exists w', w = (b :: N) ++ w').
    { change (b :: N ++ R) with ((b :: N) ++ R) in E. destruct (app_eq_app _ _ _ _ E) as (l & [[X1 X2]|[X1 X2]]); [exists l; exact X1|].
      destruct l as [|d l]; [exists []; rewrite app_nil_r in *; auto|]. exfalso. subst rest.
      assert (D : In d (b :: N)) by (rewrite X1; apply in_app_iff; right; left; reflexivity). destruct (Hp d D) as (D1 & D2 & D3).
      destruct He as [X|[(r & X)|(r & X)]]; cbn [List.app] in X; congruence. }
    destruct L as (w' & ->). change (b :: N ++ R) with ((b :: N) ++ R) in E. rewrite <- app_assoc in E. apply app_inv_head in E.
    exists w', rest, ws'. repeat split; auto; apply Hw.
Qed.
(** A word ends at a space unless it has a quote before. *)
Lemma word_stops N r : plain_text N -> ~ line_word (N ++ x20 :: r).
Proof.
  intros Hp (_ & p & q & Hp' & Hq & E). destruct (app_eq_app _ _ _ _ E) as (l & [[X1 X2]|[X1 X2]]).
  - destruct Hq as [->|(c & _ & ->)].
    + destruct l; discriminate X2.
    + destruct l as [|d l]; [discriminate X2|]. injection X2 as <- _. destruct (Hp x22) as (_ & X & _); [rewrite X1; apply in_app_iff; right; left; reflexivity|congruence].
  - destruct l as [|d l]; [|injection X2 as <- _; destruct (Hp' x20) as (X & _); [rewrite X1; apply in_app_iff; right; left; reflexivity|congruence]].
    cbn [List.app] in X2. destruct Hq as [->|(c & _ & ->)]; discriminate.
Qed.
Lemma plain_step N T ws : plain_text N -> N <> [] -> line_words (x20 :: N ++ x20 :: T) ws -> exists ws', ws = N :: ws' /\ line_words (x20 :: T) ws'.
Proof.
  intros Hp Hn H. destruct (plain_lead N _ ws Hp Hn H) as (w & rest & ws' & -> & E & Hw & He & Hl). destruct w as [|b w].
  - rewrite app_nil_r. cbn [List.app] in E. subst rest. eauto.
  - injection E as <- E. exfalso. eapply word_stops; eauto.
Qed.
Lemma plain_last N ws : plain_text N -> N <> [] -> line_words (x20 :: N) ws -> ws = [N].
Proof.
  intros Hp Hn H. rewrite <- (app_nil_r N) in H. destruct (plain_lead N _ ws Hp Hn H) as (w & rest & ws' & -> & E & Hw & He & Hl).
  destruct w; [|discriminate]. cbn [List.app] in E. subst rest. rewrite app_nil_r. f_equal.
  inversion Hl as [|n w rest ws2 Hw2 _ _ E]; [reflexivity|]. exfalso. destruct Hw2 as (X & _). destruct n; [|discriminate]. destruct w; [congruence|discriminate].
Qed.

(** ** Options *)
Lemma option_step tz o ows o' kt kd w ws name v n : option_words tz o ows o' -> other_word kt -> ows ++ [kt; kd] = w :: ws ->
  option_parts w name v -> named name n -> In n option_names ->
  exists ows' o1, ws = ows' ++ [kt; kd] /\ option_word tz o w o1 /\ option_words tz o1 ows' o'.
Proof.
  intros H K E P Nm I. destruct H as [o|o o1 o2 w' ows' H1 H2].
  - exfalso. injection E as -> _. destruct K as (name' & v' & P' & _ & F). destruct (parts_fun _ _ _ _ _ P P') as [<- <-].
    rewrite Forall_forall in F. exact (F n I Nm).
  - injection E as -> E. eauto.
Qed.
Ltac other_name H I := exfalso; match type of H with named _ ?n => match type of I with named _ ?m =>
  assert (n = m) by (eapply named_fun; [| |exact H|exact I]; unfold option_names; cbn [In]; tauto); discriminate end end.
Lemma word_namespaces tz o w o1 v : option_word tz o w o1 -> option_parts w (s2b "namespaces") v ->
  ~ In x22 v /\ exists l, comma_list l v /\ o1 = mkOptions (o_cert_authority o) (Some (without_empty l)) (o_valid_after o) (o_valid_before o).
Proof.
  intros H P. assert (N : named (s2b "namespaces") (s2b "namespaces")) by (apply (is_named _ _ in_names_2); reflexivity).
  destruct H as [name v' P' Q Nm|name v' l P' Q Nm O L|name v' t P' Q Nm O T|name v' t P' Q Nm O T]; destruct (parts_fun _ _ _ _ _ P P') as [<- <-].
  - other_name N Nm.
  - split; [exact Q|]. exists l. auto.
  - other_name N Nm.
  - other_name N Nm.
Qed.
Lemma word_after tz o w o1 v : option_word tz o w o1 -> option_parts w (s2b "valid-after") v ->
  exists t, stamp tz v t /\ o1 = mkOptions (o_cert_authority o) (o_namespaces o) (Some t) (o_valid_before o).
Proof.
  intros H P. assert (N : named (s2b "valid-after") (s2b "valid-after")) by (apply (is_named _ _ in_names_3); reflexivity).
  destruct H as [name v' P' Q Nm|name v' l P' Q Nm O L|name v' t P' Q Nm O T|name v' t P' Q Nm O T]; destruct (parts_fun _ _ _ _ _ P P') as [<- <-].
  - other_name N Nm.
  - other_name N Nm.
  - eauto.
  - other_name N Nm.
Qed.
Lemma word_before tz o w o1 v : option_word tz o w o1 -> option_parts w (s2b "valid-before") v ->
  exists t, stamp tz v t /\ o1 = mkOptions (o_cert_authority o) (o_namespaces o) (o_valid_after o) (Some t).
Proof.
  intros H P. assert (N : named (s2b "valid-before") (s2b "valid-before")) by (apply (is_named _ _ in_names_4); reflexivity).
  destruct H as [name v' P' Q Nm|name v' l P' Q Nm O L|name v' t P' Q Nm O T|name v' t P' Q Nm O T]; destruct (parts_fun _ _ _ _ _ P P') as [<- <-].
  - other_name N Nm.
  - other_name N Nm.
  - other_name N Nm.
  - eauto.
Qed.
(** What is set stays set. *)
Lemma word_keeps tz o w o1 : option_word tz o w o1 ->
  (forall l, o_namespaces o = Some l -> o_namespaces o1 = Some l) /\ (forall t, o_valid_after o = Some t -> o_valid_after o1 = Some t)
  /\ (forall t, o_valid_before o = Some t -> o_valid_before o1 = Some t).
Proof. intros H. destruct H; cbn; repeat split; congruence. Qed.
Lemma words_keep tz o ows o' : option_words tz o ows o' ->
  (forall l, o_namespaces o = Some l -> o_namespaces o' = Some l) /\ (forall t, o_valid_after o = Some t -> o_valid_after o' = Some t)
  /\ (forall t, o_valid_before o = Some t -> o_valid_before o' = Some t).
Proof.
  induction 1 as [o|o o1 o2 w ws H _ IH]; [auto|]. apply word_keeps in H. destruct H as (H1 & H2 & H3), IH as (I1 & I2 & I3). auto 6.
Qed.

(** ** Lists in words *)
Lemma commas_cons x y l : commas (x :: y :: l) = x ++ x2c :: commas (y :: l).
Proof. reflexivity. Qed.
Lemma in_commas x l b : In x l -> In b x -> In b (commas l).
Proof.
  induction l as [|y l IH]; intros Hx Hb; [destruct Hx|]. destruct l as [|z l].
  - destruct Hx as [->|[]]. exact Hb.
  - rewrite commas_cons. apply in_app_iff. destruct Hx as [->|Hx]; [auto|]. right. right. auto.
Qed.
Lemma commas_in l b : In b (commas l) -> b = x2c \/ exists x, In x l /\ In b x.
Proof.
  induction l as [|y l IH]; [intros []|]. destruct l as [|z l]; [intros H; right; exists y; cbn; auto|].
  rewrite commas_cons, in_app_iff. intros [H|[H|H]]; [right; exists y; cbn; auto|auto|].
  destruct (IH H) as [->|(x & Hx & Hb)]; [auto|]. right. exists x. split; [right; exact Hx|exact Hb].
Qed.
Lemma commas_shorter l : length (commas (without_empty l)) <= length (commas l).
Proof.
  induction l as [|x l IH]; [cbn; lia|]. unfold without_empty in *. cbn [filter].
  assert (L : forall y (m : list bytes), length (commas (y :: m)) = length y + match m with [] => 0 | _ => S (length (commas m)) end).
  { intros y [|z m]; [cbn; lia|]. rewrite commas_cons, app_length. reflexivity. }
  destruct x as [|b x]; cbn [length Nat.eqb negb].
  - rewrite L. destruct l; cbn in *; lia.
  - rewrite !L. destruct (filter (fun y : list byte => negb (length y =? 0)) l) as [|y m] eqn:Ef; [lia|]. destruct l; [discriminate|lia].
Qed.
Lemma without_empty_in x l : In x (without_empty l) -> In x l /\ x <> [].
Proof. unfold without_empty. rewrite filter_In. intros [H E]. split; [exact H|]. destruct x; [discriminate|congruence]. Qed.
Lemma plain_quotes a j p c : ~ In x22 a -> plain_text p -> a ++ repeat x22 j = p ++ x22 :: c ++ [x22] -> a = p.
Proof.
  revert p. induction a as [|b a IH]; intros p Ha Hp E.
  - destruct p as [|d p]; [reflexivity|]. exfalso. destruct j as [|j]; [discriminate|]. injection E as <- _. destruct (Hp x22 (or_introl eq_refl)) as (_ & X & _). congruence.
  - destruct p as [|d p]; cbn [List.app] in E; [injection E as -> _; exfalso; apply Ha; left; reflexivity|]. injection E as -> E. f_equal. apply (IH p); auto.
    + intros X. apply Ha. right. exact X.
    + intros x Hx. apply Hp. right. exact Hx.
Qed.
Lemma prefix_space v V r T : v ++ r = V ++ x20 :: T -> plain_text v -> length V <= length v -> v = V.
Proof.
  intros E Hp Hl. destruct (app_eq_app _ _ _ _ E) as (l & [[X1 X2]|[X1 X2]]).
  - destruct l as [|b l]; [rewrite app_nil_r in X1; exact X1|]. injection X2 as <- _. destruct (Hp x20) as (X & _); [rewrite X1; apply in_app_iff; right; left; reflexivity|congruence].
  - subst V. rewrite app_length in Hl. destruct l; [rewrite app_nil_r; reflexivity|cbn in Hl; lia].
Qed.
(** The namespaces of a printed entry. *)
Lemma namespaces_word ns l v w rest T : line_word (s2b "namespaces=" ++ w) -> w ++ rest = commas ns ++ x20 :: T ->
  unquoted w v -> ~ In x22 v -> comma_list l v -> ns = without_empty l -> w = commas ns /\ rest = x20 :: T /\ Forall plain_item ns.
Proof.
  intros Hw E (i & j & Ew & _ & _) Hq (Ln & Lc & Lv) Ens.
  assert (NQ : ~ In x22 (commas ns)).
  { intros H. apply commas_in in H. destruct H as [H|(x & Hx & Hb)]; [discriminate|]. subst ns. apply without_empty_in in Hx. destruct Hx as [Hx _].
    apply Hq. rewrite Lv. eapply in_commas; eauto. }
  assert (Hlen : length (commas ns) <= length v) by (rewrite Lv, Ens; apply commas_shorter).
  assert (i = 0).
  { destruct i as [|i]; [reflexivity|]. exfalso. rewrite Ew in E. cbn [repeat List.app] in E. destruct (commas ns) as [|b m]; [discriminate|].
    injection E as <- _. apply NQ. left. reflexivity. }
  subst i. cbn [repeat List.app] in Ew. subst w.
  assert (Pv : plain_text (s2b "namespaces=" ++ v)).
  { destruct Hw as (_ & p & q & Hp & Hq2 & E2). rewrite app_assoc in E2. destruct Hq2 as [->|(c & Hc & ->)].
    - rewrite app_nil_r in E2. intros b Hb. apply Hp. rewrite <- E2. apply in_app_iff. auto.
    - apply plain_quotes in E2; [rewrite E2; exact Hp| |exact Hp]. rewrite in_app_iff. intros [X|X]; [|tauto]. apply contains_iff in X. discriminate. }
  assert (Pv' : plain_text v) by (intros b Hb; apply Pv, in_app_iff; auto).
  rewrite <- app_assoc in E. pose proof (prefix_space v (commas ns) _ T E Pv' Hlen) as Ev. rewrite <- Ev in E. apply app_inv_head in E.
  destruct j as [|j]; [|discriminate]. cbn [repeat List.app] in *. rewrite app_nil_r. split; [exact Ev|]. split; [exact E|].
  apply Forall_forall. intros x Hx. subst ns. pose proof (without_empty_in _ _ Hx) as [Hx1 Hx2]. split; [exact Hx2|]. split.
  - intros b Hb. apply Pv'. rewrite Lv. eapply in_commas; eauto.
  - rewrite Forall_forall in Lc. apply Lc, Hx1.
Qed.

(** ** The whole line *)
Lemma read_known s k : pk_from_string s = Ok k -> known (pk_type k) /\ kind_ok (pk_type k) (pk_kind k).
Proof.
  intros H. assert (exists w1 w2 ws, split_whitespace s = w1 :: w2 :: ws) as (w1 & w2 & ws & E).
  { unfold pk_from_string in H. destruct (split_whitespace s) as [|w1 [|w2 ws]]; try discriminate. eauto. }
  apply (pk_from_string_words s w1 w2 ws k E) in H. destruct H as ((H1 & _ & H2) & _). auto.
Qed.
(** A key that is read back from its type name and blob is plain. *)
Lemma key_back k e : pk_encode k = Ok e -> pk_from_string (kt_name (pk_type k) ++ [x20] ++ b64_encode e) = Ok k -> plain_key k.
Proof.
  intros Ee H. destruct (read_known _ _ H) as [Kn Ko].
  assert (Ee' : pk_encode k = Ok (enc_bytes (kt_plain (pk_type k)) ++ enc_kind (canon (pk_kind k)))) by (apply pk_encode_enc; [exact Kn|rewrite (canon_ok _ _ Ko); exact Ko]).
  rewrite Ee in Ee'. apply ok_inj in Ee'.
  assert (S : split_whitespace (kt_name (pk_type k) ++ [x20] ++ b64_encode e) = [kt_name (pk_type k); b64_encode e]).
  { destruct (display_words (mkPubKey (pk_type k) (pk_kind k) None) e Kn Ee) as (t & Ht & Hs); [rewrite Ee'; apply enc_bytes_nonempty|].
    unfold pk_display in Ht. change (pk_encode (mkPubKey (pk_type k) (pk_kind k) None)) with (pk_encode k) in Ht. rewrite Ee in Ht. cbn [bind pk_comment pk_type] in Ht.
    apply ok_inj in Ht. subst t. exact Hs. }
  apply (pk_from_string_words _ _ _ _ k S) in H. destruct H as (_ & _ & Hc & post & Hb). rewrite b64_decode_encode in Hb. injection Hb as Hb.
  split; [apply supported_known, Kn|]. split.
  - rewrite Ee' in Hb. unfold enc_key in Hb. rewrite <- app_assoc in Hb. apply enc_bytes_inj in Hb; [apply Hb|apply known_fits, Kn|apply known_fits, Kn].
  - split; [exact Hc|]. exists (enc_kind (pk_kind k)). apply key_data_iff. auto.
Qed.
Lemma option_not_other tz o w o1 : option_word tz o w o1 -> other_word w -> False.
Proof. intros H1 H2. apply (option_word_ok tz) in H1. apply (other_word_ok tz o) in H2. congruence. Qed.
Lemma type_plain kt : known kt -> plain_text (kt_name kt) /\ kt_name kt <> [].
Proof.
  intros H. apply type_words in H. unfold type_word_ok in H. rewrite !andb_true_iff in H. destruct H as [[[H1 H2] H3] H4].
  split; [apply plain_b, H2|]. intros E. rewrite E in H1. discriminate.
Qed.
Definition key_part (k : pubkey) (e tail : bytes) : bytes := kt_name (pk_type k) ++ x20 :: b64_encode e ++ tail.
Definition printed (a : allowed_signer) (e tail : bytes) : bytes :=
  commas (as_principals a) ++ spaced (entry_words a) ++ x20 :: key_part (as_key a) e tail.
(** Behind the principals come a space and the first character of an option or of the key. *)
Lemma next_char a e tail : known (pk_type (as_key a)) -> exists c T, spaced (entry_words a) ++ x20 :: key_part (as_key a) e tail = x20 :: c :: T
  /\ (97 <= b2n c <= 122)%N.
Proof.
  intros Kn. unfold entry_words, cert_words, ns_words, bound_words, key_part. rewrite !spaced_app.
  destruct (as_cert_authority a); [eexists _, _; split; [reflexivity|cbn; lia]|].
  destruct (as_namespaces a); [eexists _, _; split; [reflexivity|cbn; lia]|].
  destruct (as_valid_after a); [eexists _, _; split; [reflexivity|cbn; lia]|].
  destruct (as_valid_before a); [eexists _, _; split; [reflexivity|cbn; lia]|].
  assert (G : match kt_name (pk_type (as_key a)) with b :: _ => (97 <= b2n b <= 122)%N | [] => False end).
  { revert Kn. generalize (pk_type (as_key a)). apply known_forall. repeat (apply Forall_cons; [cbn; lia|]). apply Forall_nil. }
  destruct (kt_name (pk_type (as_key a))) as [|b n]; [contradiction|]. eexists _, _. split; [reflexivity|exact G].
Qed.
Lemma commas_nil ps : ps <> [] -> Forall (fun p : bytes => p <> []) ps -> commas ps <> [].
Proof.
  intros H F. destruct ps as [|x [|y l]]; [congruence|..]; apply Forall_cons_iff in F; destruct F as [Hx _]; destruct x; try congruence; discriminate.
Qed.
Lemma line_back tz a e tail : pk_encode (as_key a) = Ok e -> (tail = [] \/ exists c, tail = x20 :: c) ->
  accepted_line tz (printed a e tail) a ->
  plain_entry a /\ bound_kept tz (as_valid_after a) /\ bound_kept tz (as_valid_before a)
  /\ (forall x y, as_valid_after a = Some x -> as_valid_before a = Some y -> (x < y)%Z).
Proof.
  intros Ee Ht (Q & pw & pt & ows & kt & kd & o & W & U & (L1 & L2 & L3) & F & O & K & R & E1 & E2 & E3 & E4 & B).
  destruct (read_known _ _ R) as [Kn Ko]. destruct (next_char a e tail Kn) as (c & T & En & C). unfold printed in W. rewrite En in W.
  subst pt. destruct (first_word (commas (as_principals a)) c T pw (ows ++ [kt; kd])) as (-> & Pp & W1); auto using commas_nil;
    [intros ->; cbn in C; lia|intros ->; cbn in C; lia|]. rewrite <- En in W1. clear En C c T W U Q.
  assert (PP : Forall plain_item (as_principals a)).
  { apply Forall_forall. intros p Hp. rewrite Forall_forall in F, L2. split; [apply F, Hp|]. split; [|apply L2, Hp].
    intros b Hb. apply Pp. eapply in_commas; eauto. }
  unfold entry_words in W1. rewrite !spaced_app, <- !app_assoc in W1.
  (* cert-authority *)
  assert (S1 : exists ows1 o1, option_words tz o1 ows1 o /\ line_words (spaced (ns_words a) ++ spaced (bound_words (s2b "valid-after=") (as_valid_after a))
      ++ spaced (bound_words (s2b "valid-before=") (as_valid_before a)) ++ x20 :: key_part (as_key a) e tail) (ows1 ++ [kt; kd])).
  { unfold cert_words in W1. destruct (as_cert_authority a); [|exists ows, no_options; auto].
    assert (X : exists r, spaced (ns_words a) ++ spaced (bound_words (s2b "valid-after=") (as_valid_after a))
      ++ spaced (bound_words (s2b "valid-before=") (as_valid_before a)) ++ x20 :: key_part (as_key a) e tail = x20 :: r).
    { unfold ns_words, bound_words. destruct (as_namespaces a), (as_valid_after a), (as_valid_before a); eexists; reflexivity. }
    destruct X as (r & X). rewrite X in *. unfold spaced at 1 in W1. cbn [map concat] in W1. rewrite app_nil_r in W1.
    destruct (plain_step (s2b "cert-authority") r (ows ++ [kt; kd])) as (ws' & Ews & W2); [apply plain_b; reflexivity|discriminate|exact W1|].
    destruct (option_step tz no_options ows o kt kd _ ws' (s2b "cert-authority") [] (s2b "cert-authority") O K Ews) as (ows' & o1 & -> & _ & O1).
    - exists []. split; [apply no_quote_unquoted; intros []|]. split; [|auto]. apply no_eq. reflexivity.
    - apply (is_named _ _ in_names_1). reflexivity.
    - exact in_names_1.
    - eauto. }
  destruct S1 as (ows1 & o1 & O1 & W2). clear W1 O.
  (* namespaces *)
  assert (S2 : (forall ns, as_namespaces a = Some ns -> Forall plain_item ns) /\ exists ows2 o2, option_words tz o2 ows2 o
      /\ line_words (spaced (bound_words (s2b "valid-after=") (as_valid_after a))
      ++ spaced (bound_words (s2b "valid-before=") (as_valid_before a)) ++ x20 :: key_part (as_key a) e tail) (ows2 ++ [kt; kd])).
  { unfold ns_words in W2. destruct (as_namespaces a) as [ns|] eqn:Ens; [|split; [discriminate|exists ows1, o1; auto]].
    assert (X : exists r, spaced (bound_words (s2b "valid-after=") (as_valid_after a))
      ++ spaced (bound_words (s2b "valid-before=") (as_valid_before a)) ++ x20 :: key_part (as_key a) e tail = x20 :: r).
    { unfold bound_words. destruct (as_valid_after a), (as_valid_before a); eexists; reflexivity. }
    destruct X as (r & X). rewrite X in *. unfold spaced at 1 in W2. cbn [map concat] in W2. rewrite app_nil_r in W2.
    change ((x20 :: s2b "namespaces=" ++ commas ns) ++ x20 :: r) with (x20 :: (s2b "namespaces=" ++ commas ns) ++ x20 :: r) in W2. rewrite <- app_assoc in W2.
    destruct (plain_lead (s2b "namespaces=") (commas ns ++ x20 :: r) (ows1 ++ [kt; kd])) as (w & rest & ws' & Ews & Er & Hw & _ & Wr); [apply plain_b; reflexivity|discriminate|exact W2|].
    destruct (parts_total (s2b "namespaces=" ++ w)) as (name & v & P).
    assert (P' : name = s2b "namespaces" /\ unquoted w v).
    { destruct P as (v0 & Uv & Nn & [Ep|[Ep Ev]]).
      - change (s2b "namespaces=" ++ w) with (s2b "namespaces" ++ x3d :: w) in Ep.
        assert (SO1 : split_once x3d (s2b "namespaces" ++ x3d :: w) = Some (s2b "namespaces", w)) by (apply split_once_some; split; [reflexivity|apply no_eq; reflexivity]).
        assert (SO2 : split_once x3d (s2b "namespaces" ++ x3d :: w) = Some (name, v0)) by (apply split_once_some; auto).
        rewrite SO1 in SO2. injection SO2 as <- <-. auto.
      - exfalso. apply Nn. rewrite <- Ep. apply in_app_iff. left. apply contains_iff. reflexivity. }
    destruct P' as [-> Uw].
    destruct (option_step tz o1 ows1 o kt kd _ ws' (s2b "namespaces") v (s2b "namespaces") O1 K Ews P) as (ows' & o2 & -> & H2 & O2).
    { apply (is_named _ _ in_names_2). reflexivity. } { exact in_names_2. }
    destruct (word_namespaces _ _ _ _ _ H2 P) as (Nq & l & Hl & ->). pose proof (words_keep _ _ _ _ O2) as (Kp & _). specialize (Kp _ eq_refl).
    rewrite Kp in E2. injection E2 as E2.
    destruct (namespaces_word ns l v w rest r Hw (eq_sym Er) Uw Nq Hl E2) as (-> & -> & Fp).
    split; [intros ns' [= <-]; exact Fp|]. eauto. }
  destruct S2 as (Fn & ows2 & o2 & O2 & W3). clear W2 O1.
  (* valid-after *)
  assert (S3 : bound_kept tz (as_valid_after a) /\ exists ows3 o3, option_words tz o3 ows3 o
      /\ line_words (spaced (bound_words (s2b "valid-before=") (as_valid_before a)) ++ x20 :: key_part (as_key a) e tail) (ows3 ++ [kt; kd])).
  { destruct (as_valid_after a) as [x|] eqn:Ex; [|split; [intros x; discriminate|exists ows2, o2; auto]].
    assert (X : exists r, spaced (bound_words (s2b "valid-before=") (as_valid_before a)) ++ x20 :: key_part (as_key a) e tail = x20 :: r).
    { unfold bound_words. destruct (as_valid_before a); eexists; reflexivity. }
    destruct X as (r & X). rewrite X in *. unfold spaced at 1 in W3. cbn [bound_words map concat] in W3. rewrite app_nil_r in W3.
    destruct (plain_step (s2b "valid-after=" ++ display_z x) r (ows2 ++ [kt; kd])) as (ws' & Ews & W4);
      [apply plain_app; [apply plain_b; reflexivity|apply display_z_plain]|discriminate|exact W3|].
    destruct (bound_parts (s2b "valid-after") x) as [P _]; [apply no_eq; reflexivity|].
    destruct (option_step tz o2 ows2 o kt kd _ ws' (s2b "valid-after") (display_z x) (s2b "valid-after") O2 K Ews P) as (ows' & o3 & -> & H3 & O3).
    { apply (is_named _ _ in_names_3). reflexivity. } { exact in_names_3. }
    destruct (word_after _ _ _ _ _ H3 P) as (t & St & ->). pose proof (words_keep _ _ _ _ O3) as (_ & Kp & _). specialize (Kp _ eq_refl).
    rewrite Kp in E3. injection E3 as E3. subst t.
    split; [intros x' [= <-]; exists (display_z x); split; [apply display_z_decimal|exact St]|eauto]. }
  destruct S3 as (Ba & ows3 & o3 & O3 & W4). clear W3 O2.
  (* valid-before *)
  assert (S4 : bound_kept tz (as_valid_before a) /\ exists ows4 o4, option_words tz o4 ows4 o
      /\ line_words (x20 :: key_part (as_key a) e tail) (ows4 ++ [kt; kd])).
  { destruct (as_valid_before a) as [x|] eqn:Ex; [|split; [intros x; discriminate|exists ows3, o3; auto]].
    unfold spaced at 1 in W4. cbn [bound_words map concat] in W4. rewrite app_nil_r in W4.
    destruct (plain_step (s2b "valid-before=" ++ display_z x) (key_part (as_key a) e tail) (ows3 ++ [kt; kd])) as (ws' & Ews & W5);
      [apply plain_app; [apply plain_b; reflexivity|apply display_z_plain]|discriminate|exact W4|].
    destruct (bound_parts (s2b "valid-before") x) as [P _]; [apply no_eq; reflexivity|].
    destruct (option_step tz o3 ows3 o kt kd _ ws' (s2b "valid-before") (display_z x) (s2b "valid-before") O3 K Ews P) as (ows' & o4 & -> & H4 & O4).
    { apply (is_named _ _ in_names_4). reflexivity. } { exact in_names_4. }
    destruct (word_before _ _ _ _ _ H4 P) as (t & St & ->). pose proof (words_keep _ _ _ _ O4) as (_ & _ & Kp). specialize (Kp _ eq_refl).
    rewrite Kp in E4. injection E4 as E4. subst t.
    split; [intros x' [= <-]; exists (display_z x); split; [apply display_z_decimal|exact St]|eauto]. }
  destruct S4 as (Bb & ows4 & o4 & O4 & W5). clear W4 O3.
  (* the key *)
  destruct (type_plain _ Kn) as [Tp Tn]. destruct (type_word _ Kn) as (_ & To & _). unfold key_part in W5.
  destruct (plain_step _ (b64_encode e ++ tail) _ Tp Tn W5) as (ws' & Ews & W6).
  destruct O4 as [o4|o4 o5 o6 w ows5 H5 _]; [|injection Ews as -> _; exfalso; eapply option_not_other; eauto].
  injection Ews as -> <-.
  assert (Hb : b64_encode e <> []).
  { rewrite pk_encode_enc in Ee; [|exact Kn|rewrite (canon_ok _ _ Ko); exact Ko]. apply ok_inj in Ee. subst e. apply b64_nonempty, enc_bytes_nonempty. }
  assert (kd = b64_encode e).
  { destruct Ht as [->|(c & ->)].
    - rewrite app_nil_r in W6. apply plain_last in W6; [congruence|apply b64_plain|exact Hb].
    - destruct (plain_step _ c _ (b64_plain e) Hb W6) as (ws'' & X & _). congruence. }
  subst kd. split; [|auto]. split; [exact L1|]. split; [exact PP|]. split; [exact Fn|]. eapply key_back; eauto.
Qed.

(** Property C138: what the time zone of the machine changes in an allowed-signers file. *)
From Coq Require Import Lia.
From Verif Require Import Base BaseFacts Utf8 Utf8Facts Str StrFacts SpecWire SpecText KeyType PubKeyType PubKey Chrono ChronoFacts
  AllowedSigner SpecSigner SignerFacts EntryFacts FileFacts PropSigner TbsFacts PubKeyFacts SpecZone.

(** One time in two zones. *)
Definition local_time (tz : timezone) (t : Z) : res Z := match tz t with Single off => Ok (t - off)%Z | _ => Panic end.
Lemma stamp_two v : ~ In x22 v ->
  (forall tz, parse_timestamp tz v = Err bad_stamp) \/ (exists t, utc_value t v /\ forall tz, parse_timestamp tz v = Ok t)
  \/ exists t, local_value t v /\ forall tz, parse_timestamp tz v = local_time tz t.
Proof.
  intros Q. pose proof (no_quote_unquoted v Q) as U. pose proof (fun tz => parse_timestamp_eval tz v v U) as E.
  destruct (ends_with_byte x5a v) eqn:Z.
  - destruct (parse_stamp (trim_end_matches x5a v)) as [dt|] eqn:P; [|left; exact E]. right. left. exists (dt_timestamp dt). split; [|exact E].
    apply ends_with_iff in Z. destruct (proj1 (trim_end_matches_iff x5a v _) eq_refl) as (Hb & i & Hi).
    destruct i as [|k]; [exfalso; destruct Z as (l & Hl); rewrite app_nil_r in Hi; eapply Hb; rewrite <- Hi; exact Hl|].
    exists (trim_end_matches x5a v), k. split; [exact Hi|]. split; [intros (l & Hl); eapply Hb, Hl|]. apply parse_denotes. eauto.
  - destruct (parse_stamp v) as [dt|] eqn:P; [|left; exact E]. right. right. exists (dt_timestamp dt).
    split; [|exact E]. split; [intros H; apply ends_with_iff in H; congruence|apply parse_denotes; eauto].
Qed.

Lemma word_value_ends r : word_ends r -> value_ends r.
Proof. intros [->|[(x & ->)|(x & ->)]] b t H; [discriminate|injection H as <- _..]; [right; left; cbn; lia|left; reflexivity]. Qed.

Section zones.
  Variables (tz tz' : timezone) (text : bytes).
  Definition two (o o' : options) : Prop :=
    o_cert_authority o = o_cert_authority o' /\ o_namespaces o = o_namespaces o'
    /\ same_bound tz tz' (s2b "valid-after") text (o_valid_after o) (o_valid_after o') /\ same_bound tz tz' (s2b "valid-before") text (o_valid_before o) (o_valid_before o').
  (** The outcomes in the two zones. *)
  Definition alike {A} (R : A -> A -> Prop) (x y : res A) : Prop :=
    (exists e, x = Err e /\ y = Err e) \/ (exists a b, x = Ok a /\ y = Ok b /\ R a b)
    \/ exists t, local_bound text t /\ ((x = Panic /\ forall off, tz t <> Single off) /\ (tz t = tz' t -> y = Panic)
                                       \/ (y = Panic /\ forall off, tz' t <> Single off) /\ (tz t = tz' t -> x = Panic)).
  Lemma alike_bind {A B} (R : A -> A -> Prop) (S : B -> B -> Prop) x y f g :
    alike R x y -> (forall a b, R a b -> alike S (f a) (g b)) -> alike S (bind x f) (bind y g).
  Proof.
    intros [(e & -> & ->)|[(a & b & -> & -> & H)|(t & L & [[(-> & N) H]|[(-> & N) H]])]] G.
    - left. exists e. auto.
    - apply G, H.
    - right. right. exists t. split; [exact L|]. left. split; [auto|]. intros Q. rewrite (H Q). reflexivity.
    - right. right. exists t. split; [exact L|]. right. split; [auto|]. intros Q. rewrite (H Q). reflexivity.
  Qed.
  Lemma alike_ok {A} (R : A -> A -> Prop) a b : R a b -> alike R (Ok a) (Ok b). Proof. right. left. eauto 6. Qed.
  Lemma alike_err {A} (R : A -> A -> Prop) e : alike R (Err e) (Err e). Proof. left. eauto. Qed.
  Lemma alike_same {A} (x : res A) : x <> Panic -> alike eq x x.
  Proof. destruct x; intros H; [apply alike_ok; reflexivity|apply alike_err|congruence]. Qed.

  Lemma stamp_alike n v e : n = s2b "valid-after" \/ n = s2b "valid-before" -> ~ In x22 v ->
    (forall t (P : Z -> bytes -> Prop), P = local_value \/ P = utc_value -> P t v -> written n text (P t)) ->
    alike (fun x y => same_bound tz tz' n text (Some x) (Some y)) (map_err (parse_timestamp tz v) e) (map_err (parse_timestamp tz' v) e).
  Proof.
    intros Hn Q L. destruct (stamp_two v Q) as [H|[(t & Hu & H)|(t & Hl & H)]].
    - rewrite !H. apply alike_err.
    - rewrite !H. apply alike_ok. left. split; [reflexivity|]. apply L; auto.
    - rewrite !H. unfold local_time. assert (W : written n text (local_value t)) by (apply L; auto).
      assert (B : local_bound text t) by (destruct Hn as [->| ->]; [left|right]; exact W).
      destruct (tz t) as [p| |] eqn:P, (tz' t) as [q| |] eqn:P'; cbn [map_err];
        [apply alike_ok; right; exists t, p, q; auto 6|..]; right; right; exists t; (split; [exact B|]);
        first [left; split; [split; [reflexivity|congruence]|congruence]|right; split; [split; [reflexivity|congruence]|congruence]].
  Qed.
  Lemma option_alike o o' w pre r : text = pre ++ w ++ r -> word_ends r -> two o o' ->
    alike (fun x y => match x, y with Some a, Some b => two a b | None, None => True | _, _ => False end)
      (read_option tz o w) (read_option tz' o' w).
  Proof.
    intros T We (E1 & E2 & E3 & E4). destruct (parts_total w) as (name & v & Hp). rewrite !(read_option_eval _ _ _ _ _ Hp).
    destruct (contains_byte x22 v) eqn:Eq; [apply alike_err|]. assert (Q : ~ In x22 v) by (intros H; apply contains_iff in H; congruence). cbv zeta.
    assert (L : forall n, named name n -> forall t (P : Z -> bytes -> Prop), P = local_value \/ P = utc_value -> P t v -> written n text (P t)).
    { intros n Hn t P HP Hv. destruct Hp as (v0 & Hu & Ho & [->|[-> ->]]).
      - exists pre, name, v0, v, r. rewrite T, <- app_assoc. cbn [app]. auto 8 using word_value_ends.
      - exfalso. destruct Hu as (i & j & Hu & _). symmetry in Hu. apply app_eq_nil in Hu as [_ Hu]. apply app_eq_nil in Hu as [-> _].
        destruct HP as [->| ->]; [destruct Hv as (_ & ? & ? & ? & ? & Hs & _); inversion Hs; subst; discriminate|].
        destruct Hv as (body & k & E & _). symmetry in E. apply app_eq_nil in E as [_ E]. discriminate. }
    destruct (bytes_eqb (to_lowercase name) (s2b "cert-authority")). { apply alike_ok. repeat split; assumption. }
    destruct (bytes_eqb (to_lowercase name) (s2b "namespaces")).
    { rewrite E2. destruct (o_namespaces o'); [apply alike_err|]. apply alike_ok. repeat split; assumption. }
    destruct (bytes_eqb (to_lowercase name) (s2b "valid-after")) eqn:N3.
    { apply (is_named _ _ in_names_3) in N3. unfold same_bound in E3. destruct (o_valid_after o), (o_valid_after o'); try contradiction; [apply alike_err|].
      eapply alike_bind; [apply (stamp_alike (s2b "valid-after")); [auto|exact Q|apply L; exact N3]|]. intros a b H. apply alike_ok. repeat split; assumption. }
    destruct (bytes_eqb (to_lowercase name) (s2b "valid-before")) eqn:N4.
    { apply (is_named _ _ in_names_4) in N4. unfold same_bound in E4. destruct (o_valid_before o), (o_valid_before o'); try contradiction; [apply alike_err|].
      eapply alike_bind; [apply (stamp_alike (s2b "valid-before")); [auto|exact Q|apply L; exact N4]|]. intros a b H. apply alike_ok. repeat split; assumption. }
    apply alike_ok. exact I.
  Qed.
  Lemma options_alike : forall fuel s pre o o', text = pre ++ s -> ~ ends_in x22 s -> length (splitter_new s) < fuel -> two o o' ->
    alike (fun x y => fst (fst x) = fst (fst y) /\ snd x = snd y /\ two (snd (fst x)) (snd (fst y)))
      (read_options fuel tz o (splitter_new s)) (read_options fuel tz' o' (splitter_new s)).
  Proof.
    induction fuel as [|fuel IH]; intros s pre o o' T Q Hl W; [lia|]. cbn [read_options].
    destruct (step_cases s Q) as [H|[(w & r & H)|H]].
    - rewrite next_end by exact H. apply alike_err.
    - destruct (starts_next false _ _ _ H Q) as (E & Q' & Hl'). rewrite E. cbn [bind ok_or]. destruct (starts_one _ _ _ H) as (n & -> & Hw & He).
      eapply alike_bind; [apply (option_alike o o' w (pre ++ repeat x20 n) r); [rewrite T, <- !app_assoc; reflexivity|exact He|exact W]|].
      intros [p|] [p'|] Hp; try contradiction.
      + apply (IH r (pre ++ repeat x20 n ++ w)); [rewrite T, <- !app_assoc; reflexivity|exact Q'|lia|exact Hp].
      + apply alike_ok. cbn. auto.
    - rewrite bad_next by assumption. apply alike_err.
  Qed.
  Definition bounds_err : error := EInvalidAllowedSigner ASInvalidTimestamps.
  (** Whole lines: errors are the same, or only the order of the bounds differs. *)
  Definition line_alike (x y : res allowed_signer) : Prop :=
    alike (same_entry tz tz' text) x y
    \/ exists p q p' q', same_bound tz tz' (s2b "valid-after") text (Some p) (Some p') /\ same_bound tz tz' (s2b "valid-before") text (Some q) (Some q') /\
         (((q <= p)%Z /\ (p' < q')%Z /\ x = Err bounds_err /\ (forall b, y = Ok b -> as_valid_after b = Some p' /\ as_valid_before b = Some q'))
          \/ ((p < q)%Z /\ (q' <= p')%Z /\ y = Err bounds_err /\ (forall a, x = Ok a -> as_valid_after a = Some p /\ as_valid_before a = Some q))).
  Lemma next_not_panic allowed b : splitter_next allowed b <> Panic.
  Proof.
    assert (U : forall l s, until_quote l s <> Panic).
    { induction l as [|t l IH]; intros s; cbn [until_quote]; [discriminate|]. destruct (bytes_eqb t [quote]); [discriminate|apply IH]. }
    assert (S : forall l, split_quote l <> Panic) by (intros [|t l]; cbn [split_quote]; [discriminate|]; destruct (bytes_eqb t [quote]); [apply U|discriminate]).
    unfold splitter_next. destruct (splitter_trim b) as [|t l]; [discriminate|]. destruct (bytes_eqb _ _).
    - destruct allowed; [|discriminate]. pose proof (S (t :: l)) as H. destruct (split_quote (t :: l)) as [[v r]|e|]; cbn [bind]; congruence.
    - destruct (take_plain (t :: l) []) as [s b']. destruct b' as [|t' l']; [discriminate|]. destruct (bytes_eqb t' [quote]); [|discriminate].
      pose proof (S (t' :: l')) as H. destruct (split_quote (t' :: l')) as [[v r]|e|]; cbn [bind]; [|discriminate|congruence].
      destruct r as [|x r]; [discriminate|]. destruct (_ || _); discriminate.
  Qed.
  Lemma finish_alike ps kt o o' b : two o o' -> line_alike (finish ps kt o b) (finish ps kt o' b).
  Proof.
    intros (E1 & E2 & E3 & E4). unfold finish. pose proof (next_not_panic false b) as N.
    destruct (splitter_next false b) as [[t b']|e|]; [|left; apply alike_err|congruence]. cbn [bind]. clear N.
    destruct t as [kd|]; cbn [ok_or bind]; [|left; apply alike_err]. pose proof (nopanic_pk_from_string (kt ++ [space] ++ kd)) as N.
    destruct (pk_from_string (kt ++ [space] ++ kd)) as [k|e|]; cbn [map_err bind]; [|left; apply alike_err|congruence]. clear N.
    assert (R : match splitter_trim b' with
                | [] => same_entry tz tz' text (mkSigner ps (o_cert_authority o) (o_namespaces o) (o_valid_after o) (o_valid_before o) k)
                          (mkSigner ps (o_cert_authority o') (o_namespaces o') (o_valid_after o') (o_valid_before o') k)
                | _ => True end) by (destruct (splitter_trim b'); [repeat split; assumption|exact I]).
    destruct (o_valid_before o) as [q|] eqn:B, (o_valid_before o') as [q'|] eqn:B'; try contradiction;
      destruct (o_valid_after o) as [p|] eqn:A, (o_valid_after o') as [p'|] eqn:A'; try contradiction;
      try (left; destruct (splitter_trim b'); [apply alike_ok; exact R|apply alike_err]).
    destruct (q <=? p)%Z eqn:X, (q' <=? p')%Z eqn:X'; rewrite ?Z.leb_le, ?Z.leb_gt in *.
    - left. apply alike_err.
    - right. exists p, q, p', q'. split; [exact E3|]. split; [exact E4|]. left. split; [exact X|]. split; [exact X'|]. split; [reflexivity|].
      intros y H. destruct (splitter_trim b'); [|discriminate]. apply ok_inj in H. subst y. auto.
    - right. exists p, q, p', q'. split; [exact E3|]. split; [exact E4|]. right. split; [exact X|]. split; [exact X'|]. split; [reflexivity|].
      intros y H. destruct (splitter_trim b'); [|discriminate]. apply ok_inj in H. subst y. auto.
    - left. destruct (splitter_trim b'); [apply alike_ok; exact R|apply alike_err].
  Qed.
End zones.

Lemma line_zones tz tz' s : line_alike tz tz' s (as_from_string tz s) (as_from_string tz' s).
Proof.
  destruct (ends_in_dec x22 s) as [Q|Q].
  { left. destruct (line_total tz s) as [(a & H)|[(e & H)|(ps & o & r & w & r' & (H & _) & _)]]; [destruct H as [H _]|..]; try contradiction.
    rewrite (rejected_err _ _ _ H). replace (as_from_string tz' s) with (@Err allowed_signer (EInvalidAllowedSigner e)); [apply alike_err|].
    symmetry. apply rejected_err. destruct H; try contradiction; try (match goal with R : read_so_far _ _ _ _ _ |- _ => destruct R; contradiction end).
    - apply RL_empty; assumption.
    - apply RL_q_quotes; assumption.
    - eapply RL_q_principals; eassumption.
    - eapply RL_q_no_key; eassumption.
    - eapply RL_q_more; eassumption. }
  unfold as_from_string. cbv zeta. destruct (step_cases s Q) as [H|[(w & r & H)|H]].
  - rewrite next_end by exact H. left. apply alike_err.
  - destruct (starts_next true _ _ _ H Q) as (E & Q' & Hl). rewrite E. cbn [bind ok_or]. destruct (starts_one _ _ _ H) as (n & Es & _ & _).
    destruct (existsb _ _); [left; apply alike_err|].
    pose proof (options_alike tz tz' s (S (length (splitter_new r))) r (repeat x20 n ++ w) no_options no_options) as O.
    destruct O as [(e & -> & ->)|[([[kt o] b] & [[kt' o'] b'] & -> & -> & R)|(t & L & D)]].
    + rewrite <- app_assoc. exact Es.
    + exact Q'.
    + lia.
    + repeat split.
    + left. apply alike_err.
    + cbn [fst snd] in R. destruct R as (<- & <- & R). cbn [bind]. apply (finish_alike tz tz' s _ kt o o' b R).
    + left. right. right. exists t. split; [exact L|]. destruct D as [[(-> & N) X]|[(-> & N) X]]; [left|right]; (split; [auto|intros Y; rewrite (X Y); reflexivity]).
  - rewrite bad_next by assumption. left. apply alike_err.
Qed.
Lemma same_bound_agree tz tz' n s x y : n = s2b "valid-after" \/ n = s2b "valid-before" ->
  (forall t, local_bound s t -> tz t = tz' t) -> same_bound tz tz' n s x y -> x = y.
Proof.
  intros Hn H. destruct x as [a|], y as [b|]; cbn; try contradiction; auto. intros [[-> _]|(t & p & q & W & P & P' & -> & ->)]; [reflexivity|].
  assert (L : local_bound s t) by (destruct Hn as [->| ->]; [left|right]; exact W).
  rewrite (H t L), P' in P. injection P as ->. reflexivity.
Qed.
Lemma same_entry_agree tz tz' s a b : (forall t, local_bound s t -> tz t = tz' t) -> same_entry tz tz' s a b -> a = b.
Proof.
  intros H (E1 & E2 & E3 & E4 & E5 & E6). apply same_bound_agree in E5, E6; auto. destruct a, b. cbn in *. congruence.
Qed.
(** A longer text has the local times of its lines. *)
Lemma written_in n pre s post P : value_ends post -> written n s P -> written n (pre ++ s ++ post) P.
Proof.
  intros Hp (a & name & v & u & b & -> & V & R). exists (pre ++ a), name, v, u, (b ++ post). split; [rewrite <- !app_assoc; cbn [app]; rewrite <- app_assoc; reflexivity|].
  split; [|exact R]. destruct b as [|x b]; [exact Hp|]. intros y r E. injection E as <- _. apply (V x b). reflexivity.
Qed.
Lemma local_bound_in pre s post t : value_ends post -> local_bound s t -> local_bound (pre ++ s ++ post) t.
Proof. intros P [H|H]; [left|right]; apply written_in; assumption. Qed.
Lemma same_entry_in tz tz' pre s post a b : value_ends post -> same_entry tz tz' s a b -> same_entry tz tz' (pre ++ s ++ post) a b.
Proof.
  intros P (E1 & E2 & E3 & E4 & E5 & E6).
  assert (G : forall n x y, same_bound tz tz' n s x y -> same_bound tz tz' n (pre ++ s ++ post) x y).
  { intros n [x|] [y|]; cbn; auto. intros [[-> W]|(t & p & q & W & R)]; [left; split; [reflexivity|apply written_in; assumption]|].
    right. exists t, p, q. split; [apply written_in; assumption|exact R]. }
  repeat split; auto.
Qed.
Lemma ws_value_ends l r : ws_run l -> value_ends r -> value_ends (l ++ r).
Proof.
  intros W V. destruct W as [|c bs l Hc Hs _]; [exact V|]. rewrite <- app_assoc. intros b x E.
  destruct Hc; cbn [app] in E; injection E as <- _; unfold ws_scalar in Hs; lia.
Qed.
Lemma lines_value_ends s ls : lines_of s ls -> forall l, In l ls -> exists pre post, s = pre ++ l ++ post /\ value_ends post.
Proof.
  induction 1 as [|l H N|l rest ls H _ IH|l rest ls H N _ IH]; intros x Hx.
  - destruct Hx.
  - destruct Hx as [<-|[]]. exists [], []. split; [symmetry; apply app_nil_r|discriminate].
  - destruct Hx as [<-|Hx].
    + exists [], (x0d :: x0a :: rest). split; [reflexivity|]. intros b r E. injection E as <- _. cbn. lia.
    + destruct (IH x Hx) as (pre & post & -> & V). exists (l ++ [x0d; x0a] ++ pre), post. split; [rewrite <- !app_assoc; reflexivity|exact V].
  - destruct Hx as [<-|Hx].
    + exists [], (x0a :: rest). split; [reflexivity|]. intros b r E. injection E as <- _. cbn. lia.
    + destruct (IH x Hx) as (pre & post & -> & V). exists (l ++ [x0a] ++ pre), post. split; [rewrite <- !app_assoc; reflexivity|exact V].
Qed.
Lemma entry_in s l : In l (lines s) -> exists pre post, s = pre ++ trim l ++ post /\ value_ends post.
Proof.
  intros H. destruct (lines_value_ends s _ (proj1 (lines_iff s _) eq_refl) l H) as (pre & post & E & V).
  destruct (proj1 (trim_iff' l _) eq_refl) as (p & q & El & _ & Wq & _). exists (pre ++ p), (q ++ post).
  split; [rewrite E; rewrite El at 1; rewrite <- !app_assoc; reflexivity|apply ws_value_ends; assumption].
Qed.

(** ** C138 *)
(** The time zone matters only for the times written without [Z]: zones that agree on them give the same. *)
Theorem C138_agreeing_zones : forall (tz tz' : timezone) (s : bytes), (forall t, local_bound s t -> tz t = tz' t) ->
  as_from_string tz s = as_from_string tz' s /\ signers_from_string tz s = signers_from_string tz' s.
Proof.
  assert (L : forall tz tz' s, (forall t, local_bound s t -> tz t = tz' t) -> as_from_string tz s = as_from_string tz' s).
  { intros tz tz' s H. destruct (line_zones tz tz' s) as [[(e & -> & ->)|[(a & b & -> & -> & R)|(t & Lt & [[(-> & _) X]|[(-> & _) X]])]]|(p & q & p' & q' & B1 & B2 & D)].
    - reflexivity.
    - rewrite (same_entry_agree _ _ _ _ _ H R). reflexivity.
    - rewrite (X (H t Lt)). reflexivity.
    - apply X, H, Lt.
    - exfalso. apply same_bound_agree in B1, B2; auto. injection B1 as <-. injection B2 as <-. destruct D as [(? & ? & _)|(? & ? & _)]; lia. }
  intros tz tz' s H. split; [apply L, H|]. unfold signers_from_string. assert (G : forall l, In l (lines s) -> as_from_string tz (trim l) = as_from_string tz' (trim l)).
  { intros l Hl. apply L. intros t Ht. apply H. destruct (entry_in s l Hl) as (pre & post & -> & V). apply local_bound_in; assumption. }
  revert G. generalize 0. induction (lines s) as [|l ls IH]; intros n G; [reflexivity|]. cbn [read_lines].
  rewrite (G l (or_introl eq_refl)), (IH (S n)) by (intros; apply G; right; assumption). reflexivity.
Qed.
Print Assumptions C138_agreeing_zones.

(** An entry read in one zone is in every other zone the same but for bounds that were written without [Z]; or the
    bounds are in the wrong order there; or a time does not exist there once, and reading panics. *)
Theorem C138_elsewhere : forall (tz tz' : timezone) (s : bytes) (a : allowed_signer), as_from_string tz s = Ok a ->
  match as_from_string tz' s with
  | Ok b => same_entry tz tz' s a b
  | Err e => e = EInvalidAllowedSigner ASInvalidTimestamps
      /\ exists p q, as_valid_after a = Some p /\ as_valid_before a = Some q
           /\ exists p' q', same_bound tz tz' (s2b "valid-after") s (Some p) (Some p') /\ same_bound tz tz' (s2b "valid-before") s (Some q) (Some q') /\ (q' <= p')%Z
  | Panic => no_instant tz' s
  end.
Proof.
  intros tz tz' s a H. destruct (line_zones tz tz' s) as [[(e & E & _)|[(x & y & E & -> & R)|(t & L & [[(E & _) _]|[(-> & N) _]])]]|(p & q & p' & q' & B1 & B2 & [(_ & _ & E & _)|(_ & O & -> & B)])];
    try (rewrite H in E; discriminate).
  - rewrite H in E. apply ok_inj in E. subst x. exact R.
  - exists t. auto.
  - split; [reflexivity|]. destruct (B a H) as [Ba Bb]. exists p, q. split; [exact Ba|]. split; [exact Bb|]. exists p', q'. auto.
Qed.
Print Assumptions C138_elsewhere.
Theorem C138_file_elsewhere : forall (tz tz' : timezone) (s : bytes) (l : list allowed_signer), signers_from_string tz s = Ok l ->
  match signers_from_string tz' s with
  | Ok l' => Forall2 (same_entry tz tz' s) l l'
  | Err e => exists n, e = EInvalidAllowedSigners ASInvalidTimestamps n
  | Panic => no_instant tz' s
  end.
Proof.
  intros tz tz' s. unfold signers_from_string. pose proof (entry_in s) as G. revert G. generalize 0.
  induction (lines s) as [|x ls IH]; intros n G l H; cbn [read_lines] in *; [apply ok_inj in H; subst l; constructor|].
  specialize (IH (S n) (fun y Hy => G y (or_intror Hy))).
  destruct (negb (nonempty (trim x)) || starts_with_byte pound (trim x)); [apply IH, H|].
  destruct (as_from_string tz (trim x)) as [a|e|] eqn:A; [|destruct e; discriminate|discriminate].
  pose proof (C138_elsewhere tz tz' (trim x) a A) as E. destruct (G x (or_introl eq_refl)) as (pre & post & Es & V).
  destruct (read_lines tz (S n) ls) as [r|e|] eqn:R; cbn [bind] in H; try discriminate. apply ok_inj in H. subst l. specialize (IH r eq_refl).
  destruct (as_from_string tz' (trim x)) as [b|e|].
  - destruct (read_lines tz' (S n) ls) as [r'|e|]; cbn [bind]; [|exact IH..]. constructor; [rewrite Es; apply same_entry_in; assumption|exact IH].
  - destruct E as [-> _]. eauto.
  - destruct E as (t & L & N). exists t. split; [rewrite Es; apply local_bound_in; assumption|exact N].
Qed.
Print Assumptions C138_file_elsewhere.
(** Between zones with fixed offsets a bound stays or moves by the difference. *)
Theorem C138_fixed_offsets : forall (p q : Z) (s : bytes) (a b : allowed_signer),
  as_from_string (fun _ => Single p) s = Ok a -> as_from_string (fun _ => Single q) s = Ok b ->
  let moved x y := x = y \/ exists u, x = Some u /\ y = Some (u + p - q)%Z in
  moved (as_valid_after a) (as_valid_after b) /\ moved (as_valid_before a) (as_valid_before b).
Proof.
  intros p q s a b A B moved. pose proof (C138_elsewhere _ (fun _ => Single q) s a A) as E. rewrite B in E. destruct E as (_ & _ & _ & _ & E1 & E2).
  assert (G : forall n x y, same_bound (fun _ => Single p) (fun _ => Single q) n s x y -> moved x y).
  { intros n [x|] [y|]; cbn; try contradiction; [|left; reflexivity]. intros [[-> _]|(t & p' & q' & _ & P & Q & -> & ->)]; [left; reflexivity|].
    injection P as <-. injection Q as <-. right. exists (t - p)%Z. split; [reflexivity|]. f_equal. lia. }
  eauto.
Qed.
Print Assumptions C138_fixed_offsets.

(** A file that can be read on one machine may be refused on another. *)
Definition ex_mixed : bytes := s2b "a valid-after=202401010030Z valid-before=202401010100 " ++ ex_key_text.
Theorem C138_accepted_everywhere_refuted : exists (tz tz' : timezone) (s : bytes) (a : allowed_signer) (l : list allowed_signer),
  as_from_string tz s = Ok a /\ signers_from_string tz s = Ok l
  /\ as_from_string tz' s = Err (EInvalidAllowedSigner ASInvalidTimestamps)
  /\ signers_from_string tz' s = Err (EInvalidAllowedSigners ASInvalidTimestamps 0).
Proof.
  exists utc, east, ex_mixed. eexists _, _. split; [vm_compute; reflexivity|]. split; [vm_compute; reflexivity|]. split; vm_compute; reflexivity.
Qed.
Print Assumptions C138_accepted_everywhere_refuted.

Example C138_case : exists a b, as_from_string utc (s2b "a valid-after=20240101 valid-before=20250101Z " ++ ex_key_text) = Ok a
  /\ as_from_string east (s2b "a valid-after=20240101 valid-before=20250101Z " ++ ex_key_text) = Ok b
  /\ as_valid_after a = Some 1704067200%Z /\ as_valid_after b = Some 1704063600%Z /\ as_valid_before a = as_valid_before b
  /\ as_from_string changing (s2b "a valid-after=202403310215 " ++ ex_key_text) = Panic.
Proof.
  eexists _, _. split; [vm_compute; reflexivity|]. split; [vm_compute; reflexivity|]. do 3 (split; [reflexivity|]). vm_compute. reflexivity.
Qed.
(** A text whose only time ends in [Z] has no local times. *)
Example C138_case_utc : forall tz tz' : timezone, let s := s2b "a valid-before=20250101Z " ++ ex_key_text in
  (forall t, ~ local_bound s t) /\ as_from_string tz s = as_from_string tz' s /\ exists a, as_from_string tz s = Ok a.
Proof.
  intros tz tz' s. assert (N : forall t, ~ local_bound s t).
  { intros t Ht. assert (X : exists pre name v u post, s = pre ++ name ++ x3d :: v ++ post /\ value_ends post
      /\ (named name (s2b "valid-after") \/ named name (s2b "valid-before")) /\ unquoted v u /\ local_value t u).
    { destruct Ht as [(pre & name & v & u & post & E & V & Hn & R)|(pre & name & v & u & post & E & V & Hn & R)]; exists pre, name, v, u, post; auto. }
    clear Ht. destruct X as (pre & name & v & u & post & E & V & Hn & Hu & Hz & Hd).
    assert (Q : ~ In x22 s) by (intros I; apply contains_iff in I; vm_compute in I; discriminate).
    assert (Qv : ~ In x22 v) by (intros I; apply Q; rewrite E, !in_app_iff; right; right; right; rewrite in_app_iff; left; exact I).
    assert (u = v) by (eapply unquoted_fun; [exact Hu|apply no_quote_unquoted, Qv]). subst u.
    assert (Lv : length v = 8 \/ length v = 12 \/ length v = 14) by (destruct Hd as (? & ? & ? & ? & Hs & _); inversion Hs; auto).
    assert (Ln : to_lowercase name = s2b "valid-after" \/ to_lowercase name = s2b "valid-before").
    { destruct Hn as [Hn|Hn]; [left; apply bytes_eqb_eq, (is_named _ _ in_names_3), Hn|right; apply bytes_eqb_eq, (is_named _ _ in_names_4), Hn]. }
    assert (K : exists k n m, k < length s /\ (n = 11 \/ n = 12) /\ (m = 8 \/ m = 12 \/ m = 14)
      /\ name = firstn n (skipn k s) /\ post = skipn (k + n + 1 + m) s).
    { assert (Lm : length name = 11 \/ length name = 12).
      { destruct Ln as [Ln|Ln]; apply (f_equal (@length byte)) in Ln; unfold to_lowercase in Ln; rewrite map_length in Ln; auto. }
      exists (length pre), (length name), (length v). split; [rewrite E, app_length; cbn; rewrite app_length; cbn; lia|]. split; [exact Lm|]. split; [exact Lv|].
      rewrite E. rewrite skipn_app, skipn_all, Nat.sub_diag. cbn [skipn app]. rewrite firstn_app, firstn_all, Nat.sub_diag, app_nil_r. split; [reflexivity|].
      replace (pre ++ name ++ x3d :: v ++ post) with ((((pre ++ name) ++ [x3d]) ++ v) ++ post) by (rewrite <- !app_assoc; reflexivity).
      replace (length pre + length name + 1 + length v) with (length (((pre ++ name) ++ [x3d]) ++ v)) by (rewrite !app_length; cbn; lia).
      rewrite skipn_app, skipn_all, Nat.sub_diag. reflexivity. }
    destruct K as (k & n & m & Hk & Hnn & Hm & -> & ->).
    assert (C : forallb (fun k => forallb (fun n => if bytes_eqb (to_lowercase (firstn n (skipn k s))) (s2b "valid-after")
        || bytes_eqb (to_lowercase (firstn n (skipn k s))) (s2b "valid-before") then
          forallb (fun m => match skipn (k + n + 1 + m) s with b :: _ => negb (byte_eqb b x23) && (33 <=? Byte.to_N b)%N && (Byte.to_N b <=? 127)%N | [] => false end) [8; 12; 14]
        else true) [11; 12]) (seq 0 (length s)) = true) by (vm_compute; reflexivity).
    rewrite forallb_forall in C. specialize (C k). rewrite in_seq in C. specialize (C ltac:(lia)). rewrite forallb_forall in C. specialize (C n ltac:(cbn; lia)).
    assert (X : bytes_eqb (to_lowercase (firstn n (skipn k s))) (s2b "valid-after") || bytes_eqb (to_lowercase (firstn n (skipn k s))) (s2b "valid-before") = true)
      by (apply orb_true_iff; rewrite !bytes_eqb_eq; exact Ln).
    rewrite X in C. rewrite forallb_forall in C. specialize (C m ltac:(cbn; lia)). destruct (skipn (k + n + 1 + m) s) as [|b r]; [discriminate|].
    rewrite !andb_true_iff, negb_true_iff, byte_eqb_neq, !N.leb_le in C. destruct (V b r eq_refl) as [->|[V1|V1]]; [tauto|lia..]. }
  split; [exact N|]. split; [apply C138_agreeing_zones; intros t H; destruct (N t H)|]. eexists. vm_compute. reflexivity.
Qed.

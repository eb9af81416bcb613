(** Properties C62-C69, C80: allowed_signers entries and files. *)
From Coq Require Import Lia.
From Verif Require Import Base BaseFacts Str StrFacts SpecWire SpecText SpecBase64 SpecKeys KeyType KeyTypeFacts
  PubKeyType PubKey PubKeyFacts Base64 Base64Facts Chrono AllowedSigner SpecSigner ChronoFacts SignerFacts EntryFacts FileFacts
  PropPubKey.

(** An entry used in the examples, and time zones: UTC, one hour ahead, and one with a clock
    change that skips and one that repeats a local hour. *)
Definition ex_key_text : bytes :=
  s2b "ssh-ed25519 AAAAC3NzaC1lZDI1NTE5AAAAIAcHBwcHBwcHBwcHBwcHBwcHBwcHBwcHBwcHBwcHBwcH".
Definition ex_key : pubkey := mkPubKey ex_ed (PkEd25519 (repeat x07 32) None) None.
Definition utc : timezone := fun _ => Single 0.
Definition east : timezone := fun _ => Single 3600.
Definition changing : timezone := fun t =>
  if ((1711850400 <=? t) && (t <? 1711854000))%Z then Skipped
  else if ((1729994400 <=? t) && (t <? 1729998000))%Z then Repeated else Single 3600.

(** ** C62 *)
(** The accepted lines, exactly. *)
Theorem C62_accepted_lines : forall (tz : timezone) (s : bytes) (a : allowed_signer),
  as_from_string tz s = Ok a <-> accepted_line tz s a.
Proof. exact accepted_iff. Qed.
Print Assumptions C62_accepted_lines.

Theorem C62_entries_well_formed : forall (tz : timezone) (s : bytes) (a : allowed_signer),
  as_from_string tz s = Ok a ->
  as_principals a <> [] /\ Forall (fun p => p <> []) (as_principals a) /\ Forall (fun p => ~ In x2c p) (as_principals a)
  /\ (forall x y, as_valid_after a = Some x -> as_valid_before a = Some y -> (x < y)%Z)
  /\ exists front kt kd, line_words s (front ++ [kt; kd]) /\ pk_from_string (kt ++ s2b " " ++ kd) = Ok (as_key a).
Proof.
  intros tz s a H. apply accepted_iff in H.
  destruct H as (Hq & pw & pt & ows & kt & kd & o & Hw & Hu & (Hc1 & Hc2 & Hc3) & Hne & Ho & Hk & Hp & E1 & E2 & E3 & E4 & Ht).
  repeat (split; [assumption|]). exists (pw :: ows), kt, kd. split; [exact Hw|exact Hp].
Qed.
Print Assumptions C62_entries_well_formed.

(** The words of a line are determined by the line. *)
Theorem C62_words_unique : forall (s : bytes) (ws1 ws2 : list bytes), ~ ends_in x22 s ->
  line_words s ws1 -> line_words s ws2 -> ws1 = ws2.
Proof.
  intros s ws1 ws2 Hq H1. revert ws2 Hq. induction H1 as [l Hn|n w rest ws Hw He Hl IH]; intros ws2 Hq H2.
  - inversion H2 as [|n' w' rest' ws' Hw' He' Hl' E]; subst; [reflexivity|]. exfalso.
    eapply no_words_no_word; [exact Hn|]. econstructor; [exact Hw'|exact He'|constructor].
  - inversion H2 as [l' Hn'|n' w' rest' ws' Hw' He' Hl' E]; subst.
    + exfalso. eapply no_words_no_word; [exact Hn'|]. econstructor; [exact Hw|exact He|constructor].
    + assert (Hq2 : ~ ends_in x22 (repeat x20 n' ++ w' ++ rest')) by (rewrite E; exact Hq).
      pose proof (next_word false n w rest Hw He (ends_in_suffix _ _ _ Hq)) as A.
      pose proof (next_word false n' w' rest' Hw' He' (ends_in_suffix _ _ _ Hq2)) as B. rewrite E in B.
      assert (W : w = w') by congruence. subst w'.
      assert (N : n = n').
      { destruct (word_starts w rest Hw) as (b & t & E1 & H1 & _). destruct (word_starts w rest' Hw') as (b' & t' & E2 & H1' & _).
        rewrite E1, E2 in E. clear -E H1 H1'. revert n' E. induction n as [|n IH]; intros [|n'] E; cbn in E; try reflexivity;
          injection E as E; try congruence. f_equal. apply IH. assumption. }
      subst n'. apply app_inv_head in E. apply app_inv_head in E. subst rest'. f_equal. apply IH; [|exact Hl'].
      exact (ends_in_suffix _ _ _ (ends_in_suffix _ _ _ Hq)).
Qed.
Print Assumptions C62_words_unique.

Example C62_case : as_from_string east (s2b "a@x.org,b cert-authority Valid-After=""20240229"" namespaces=git,,file " ++ ex_key_text ++ s2b " # home")
  = Ok (mkSigner [s2b "a@x.org"; s2b "b"] true (Some [s2b "git"; s2b "file"]) (Some 1709161200%Z) None ex_key).
Proof. vm_compute. reflexivity. Qed.
Example C62_case_rejected :
  as_from_string utc (s2b "a,,b " ++ ex_key_text) = Err (EInvalidAllowedSigner ASInvalidPrincipals)
  /\ as_from_string utc (s2b "a valid-after=20240101Z valid-before=20240101Z " ++ ex_key_text) = Err (EInvalidAllowedSigner ASInvalidTimestamps).
Proof. split; vm_compute; reflexivity. Qed.

(** ** C63 *)
Lemma read_options_fuel tz : forall f1 f2 o b, length b < f1 -> length b < f2 -> read_options f1 tz o b = read_options f2 tz o b.
Proof.
  induction f1 as [|f1 IH]; intros f2 o b H1 H2; [lia|]. destruct f2 as [|f2]; [lia|]. cbn [read_options].
  destruct (splitter_next false b) as [[[w|] b']| |] eqn:E; cbn [bind ok_or]; try reflexivity.
  apply next_length in E. destruct (read_option tz o w) as [[o'|]| |]; cbn [bind]; try reflexivity. apply IH; lia.
Qed.
Lemma eval_option tz s ps o r w r' : read_so_far tz s ps o r -> line_starts r [w] r' ->
  as_from_string tz s =
  do? x <- read_option tz o w;
  match x with
  | Some o' => do? (kt, o2, b) <- read_options (S (length (splitter_new r'))) tz o' (splitter_new r'); finish ps kt o2 b
  | None => finish ps w o (splitter_new r')
  end.
Proof.
  intros H Hw. destruct (from_string_eval _ _ _ _ _ H) as (Hq & fuel & Hf & ->).
  destruct (starts_next false _ _ _ Hw Hq) as (E & _ & Hl). destruct fuel as [|fuel]; [lia|]. cbn [read_options]. rewrite E. cbn [bind ok_or].
  destruct (read_option tz o w) as [[o'|]| |]; cbn [bind]; try reflexivity.
  rewrite (read_options_fuel tz fuel (S (length (splitter_new r')))) by lia. reflexivity.
Qed.
(** Two lines that differ only in the case of an option name give the same result. *)
Theorem C63_names_ignore_case : forall (tz : timezone) (s1 s2 : bytes) ps o r1 r2 name1 name2 n tail r,
  read_so_far tz s1 ps o r1 -> read_so_far tz s2 ps o r2 ->
  line_starts r1 [name1 ++ tail] r -> line_starts r2 [name2 ++ tail] r ->
  tail = [] \/ (exists v, tail = x3d :: v) -> ~ In x3d name1 -> ~ In x3d name2 ->
  In n option_names -> named name1 n -> named name2 n ->
  as_from_string tz s1 = as_from_string tz s2.
Proof.
  intros tz s1 s2 ps o r1 r2 name1 name2 n tail r H1 H2 W1 W2 Ht N1 N2 Hn M1 M2.
  rewrite (eval_option _ _ _ _ _ _ _ H1 W1), (eval_option _ _ _ _ _ _ _ H2 W2).
  set (x := match tail with _ :: v => v | [] => [] end). destruct (unquoted_total x) as (v & Hv).
  assert (P : forall name, ~ In x3d name -> option_parts (name ++ tail) name v).
  { intros name Hi. exists x. split; [exact Hv|]. split; [exact Hi|]. destruct Ht as [->|(y & ->)]; [right; rewrite app_nil_r; auto|left; reflexivity]. }
  apply (is_named name1 n Hn) in M1. apply (is_named name2 n Hn) in M2. apply bytes_eqb_eq in M1, M2.
  pose proof (read_option_eval tz o _ _ _ (P name1 N1)) as E1. pose proof (read_option_eval tz o _ _ _ (P name2 N2)) as E2.
  rewrite M1 in E1. rewrite M2 in E2. rewrite <- E2 in E1. rewrite E1.
  destruct (read_option tz o (name2 ++ tail)) as [[o'|]| |] eqn:E; try reflexivity. exfalso.
  rewrite E2 in E. destruct (contains_byte x22 v); [discriminate|]. cbv zeta in E.
  destruct Hn as [<-|[<-|[<-|[<-|[]]]]].
  - discriminate.
  - change (bytes_eqb (s2b "namespaces") (s2b "cert-authority")) with false in E. change (bytes_eqb (s2b "namespaces") (s2b "namespaces")) with true in E.
    cbv iota in E. destruct (o_namespaces o); discriminate.
  - change (bytes_eqb (s2b "valid-after") (s2b "cert-authority")) with false in E. change (bytes_eqb (s2b "valid-after") (s2b "namespaces")) with false in E.
    change (bytes_eqb (s2b "valid-after") (s2b "valid-after")) with true in E. cbv iota in E.
    destruct (o_valid_after o); [discriminate|]. destruct (parse_timestamp tz v); discriminate.
  - change (bytes_eqb (s2b "valid-before") (s2b "cert-authority")) with false in E. change (bytes_eqb (s2b "valid-before") (s2b "namespaces")) with false in E.
    change (bytes_eqb (s2b "valid-before") (s2b "valid-after")) with false in E. change (bytes_eqb (s2b "valid-before") (s2b "valid-before")) with true in E. cbv iota in E.
    destruct (o_valid_before o); [discriminate|]. destruct (parse_timestamp tz v); discriminate.
Qed.
Print Assumptions C63_names_ignore_case.

(** A second [namespaces], [valid-after] or [valid-before] is rejected, whatever follows it. *)
Theorem C63_duplicates_rejected : forall (tz : timezone) (s : bytes) ps o r w r' name v n,
  read_so_far tz s ps o r -> line_starts r [w] r' -> option_parts w name v -> ~ In x22 v ->
  named name n ->
  (n = s2b "namespaces" /\ o_namespaces o <> None
   \/ n = s2b "valid-after" /\ o_valid_after o <> None
   \/ n = s2b "valid-before" /\ o_valid_before o <> None) ->
  as_from_string tz s = Err (EInvalidAllowedSigner (ASDuplicateOptions n)).
Proof.
  intros tz s ps o r w r' name v n H Hw Hp Hq Hn Hd. apply rejected_err. eapply RL_option; [exact H|exact Hw|].
  eapply OE_duplicate; [exact Hp|exact Hq|]. split; assumption.
Qed.
Print Assumptions C63_duplicates_rejected.

(** Another [cert-authority] changes nothing. *)
Theorem C63_cert_authority_repeats : forall (tz : timezone) (s1 s2 : bytes) ps o r1 r2 w name v,
  read_so_far tz s1 ps o r1 -> o_cert_authority o = true ->
  read_so_far tz s2 ps o r2 -> line_starts r2 [w] r1 ->
  option_parts w name v -> ~ In x22 v -> named name (s2b "cert-authority") ->
  as_from_string tz s2 = as_from_string tz s1.
Proof.
  intros tz s1 s2 ps o r1 r2 w name v H1 Hc H2 Hw Hp Hq Hn.
  assert (W : option_word tz o w o).
  { pose proof (OW_cert_authority tz o w name v Hp Hq Hn) as W. destruct o; cbn in *. subst. exact W. }
  rewrite (eval_option _ _ _ _ _ _ _ H2 Hw), (option_word_ok _ _ _ _ W). cbn [bind].
  destruct (from_string_eval _ _ _ _ _ H1) as (_ & fuel & Hf & ->).
  rewrite (read_options_fuel tz fuel (S (length (splitter_new r1)))) by lia. reflexivity.
Qed.
Print Assumptions C63_cert_authority_repeats.

(** Where the fields of an accepted entry come from. *)
Definition option_of (ows : list bytes) (n v : bytes) : Prop :=
  exists w name, In w ows /\ option_parts w name v /\ ~ In x22 v /\ named name n.
Lemma option_of_cons w ws n v : option_of (w :: ws) n v <->
  (exists name, option_parts w name v /\ ~ In x22 v /\ named name n) \/ option_of ws n v.
Proof.
  split.
  - intros (w' & name & [<-|Hi] & H); [left; eauto|right; exists w', name; auto].
  - intros [(name & H)|(w' & name & Hi & H)]; [exists w, name; split; [left; reflexivity|exact H]|exists w', name; split; [right; exact Hi|exact H]].
Qed.
Lemma option_of_nil n v : ~ option_of [] n v.
Proof. intros (w & _ & [] & _). Qed.
Lemma option_field {X} tz (f : options -> option X) n (val : bytes -> X -> Prop) :
  (forall v x y, val v x -> val v y -> x = y) ->
  (forall o w o1, option_word tz o w o1 ->
     (exists name v x, option_parts w name v /\ ~ In x22 v /\ named name n /\ f o = None /\ f o1 = Some x /\ val v x)
     \/ ((forall name v, option_parts w name v -> ~ named name n) /\ f o1 = f o)) ->
  forall o ows o', option_words tz o ows o' -> f o = None ->
  forall t, f o' = Some t <-> exists v, option_of ows n v /\ val v t.
Proof.
  intros Hf Hs.
  assert (P : forall o ows o', option_words tz o ows o' -> f o <> None -> (forall v, ~ option_of ows n v) /\ f o' = f o).
  { induction 1 as [o|o o1 o2 w ws Hw _ IH]; intros Hn; [split; [intros v; apply option_of_nil|reflexivity]|].
    destruct (Hs _ _ _ Hw) as [(name & v & x & _ & _ & _ & E & _)|[H1 H2]]; [congruence|].
    destruct IH as [IH1 IH2]; [congruence|]. split; [|congruence]. intros v Hv. apply option_of_cons in Hv.
    destruct Hv as [(name & A & _ & B)|Hv]; [exact (H1 _ _ A B)|exact (IH1 _ Hv)]. }
  induction 1 as [o|o o1 o2 w ws Hw Hws IH]; intros Hn t.
  - split; [congruence|]. intros (v & Hv & _). destruct (option_of_nil _ _ Hv).
  - destruct (Hs _ _ _ Hw) as [(name & v & x & A & B & C & _ & E & V)|[H1 H2]].
    + destruct (P _ _ _ Hws) as [P1 P2]; [congruence|]. rewrite P2, E. split.
      * intros [= <-]. exists v. split; [apply option_of_cons; left; eauto|exact V].
      * intros (v' & Hv & V'). apply option_of_cons in Hv. destruct Hv as [(name' & A' & _)|Hv]; [|destruct (P1 _ Hv)].
        destruct (parts_fun _ _ _ _ _ A A') as [_ <-]. f_equal. eapply Hf; eassumption.
    + rewrite IH by congruence. split; intros (v & Hv & V); exists v; (split; [|exact V]).
      * apply option_of_cons. auto.
      * apply option_of_cons in Hv. destruct Hv as [(name & A & _ & B)|Hv]; [destruct (H1 _ _ A B)|exact Hv].
Qed.
Lemma stamp_fun tz v x y : stamp tz v x -> stamp tz v y -> x = y.
Proof. intros H1 H2. apply parse_timestamp_ok in H1, H2. congruence. Qed.
Lemma other_name w name v name' v' n m : option_parts w name v -> named name n -> In n option_names -> In m option_names -> n <> m ->
  option_parts w name' v' -> ~ named name' m.
Proof. intros P1 N1 I1 I2 D P2 N2. destruct (parts_fun _ _ _ _ _ P1 P2) as [<- _]. apply D. eapply named_fun; eauto. Qed.
Ltac other_field Hp Hn I1 I2 := right; split; [intros ? ? P; eapply (other_name _ _ _ _ _ _ _ Hp Hn I1 I2); [discriminate|exact P]|reflexivity].
Lemma entry_fields tz ows o : option_words tz no_options ows o ->
  (o_cert_authority o = true <-> exists v, option_of ows (s2b "cert-authority") v)
  /\ (forall l, o_namespaces o = Some l <-> exists v, option_of ows (s2b "namespaces") v /\ exists items, comma_list items v /\ l = without_empty items)
  /\ (forall t, o_valid_after o = Some t <-> exists v, option_of ows (s2b "valid-after") v /\ stamp tz v t)
  /\ (forall t, o_valid_before o = Some t <-> exists v, option_of ows (s2b "valid-before") v /\ stamp tz v t).
Proof.
  intros H. split; [|split; [|split]].
  - assert (G : forall o0, option_words tz o0 ows o -> (o_cert_authority o = true <-> o_cert_authority o0 = true \/ exists v, option_of ows (s2b "cert-authority") v)).
    { clear H. induction 1 as [o1|o1 o2 o3 w ws Hw _ IH].
      - split; [auto|]. intros [E|(v & Hv)]; [exact E|destruct (option_of_nil _ _ Hv)].
      - rewrite IH. destruct Hw as [name v Hp Hq Hn|name v l Hp Hq Hn Ho Hl|name v t Hp Hq Hn Ho Ht|name v t Hp Hq Hn Ho Ht]; cbn [o_cert_authority].
        + split; [|auto]. intros _. right. exists v. apply option_of_cons. left. eauto.
        + split; (intros [E|(v' & Hv)]; [auto|right; exists v']).
          * apply option_of_cons. auto.
          * apply option_of_cons in Hv. destruct Hv as [(name' & A & _ & B)|Hv]; [exfalso|exact Hv].
            eapply (other_name _ _ _ _ _ _ _ Hp Hn in_names_2 in_names_1); [discriminate|exact A|exact B].
        + split; (intros [E|(v' & Hv)]; [auto|right; exists v']).
          * apply option_of_cons. auto.
          * apply option_of_cons in Hv. destruct Hv as [(name' & A & _ & B)|Hv]; [exfalso|exact Hv].
            eapply (other_name _ _ _ _ _ _ _ Hp Hn in_names_3 in_names_1); [discriminate|exact A|exact B].
        + split; (intros [E|(v' & Hv)]; [auto|right; exists v']).
          * apply option_of_cons. auto.
          * apply option_of_cons in Hv. destruct Hv as [(name' & A & _ & B)|Hv]; [exfalso|exact Hv].
            eapply (other_name _ _ _ _ _ _ _ Hp Hn in_names_4 in_names_1); [discriminate|exact A|exact B]. }
    rewrite (G no_options H). cbn [no_options o_cert_authority]. split; [intros [E|E]; [discriminate|exact E]|auto].
  - eapply (option_field tz o_namespaces (s2b "namespaces") (fun v l => exists items, comma_list items v /\ l = without_empty items)); [|  |exact H|reflexivity].
    + intros v x y (i1 & H1 & ->) (i2 & H2 & ->). apply split_on_iff in H1, H2. congruence.
    + intros o0 w o1 Hw. destruct Hw as [name v Hp Hq Hn|name v l Hp Hq Hn Ho Hl|name v t Hp Hq Hn Ho Ht|name v t Hp Hq Hn Ho Ht];
        cbn [o_namespaces].
      * other_field Hp Hn in_names_1 in_names_2.
      * left. exists name, v, (without_empty l). repeat (split; [assumption|]). split; [reflexivity|eauto].
      * other_field Hp Hn in_names_3 in_names_2.
      * other_field Hp Hn in_names_4 in_names_2.
  - eapply (option_field tz o_valid_after (s2b "valid-after") (stamp tz)); [apply stamp_fun| |exact H|reflexivity].
    intros o0 w o1 Hw. destruct Hw as [name v Hp Hq Hn|name v l Hp Hq Hn Ho Hl|name v t Hp Hq Hn Ho Ht|name v t Hp Hq Hn Ho Ht];
      cbn [o_valid_after].
    + other_field Hp Hn in_names_1 in_names_3.
    + other_field Hp Hn in_names_2 in_names_3.
    + left. exists name, v, t. repeat (split; [assumption|]). split; [reflexivity|exact Ht].
    + other_field Hp Hn in_names_4 in_names_3.
  - eapply (option_field tz o_valid_before (s2b "valid-before") (stamp tz)); [apply stamp_fun| |exact H|reflexivity].
    intros o0 w o1 Hw. destruct Hw as [name v Hp Hq Hn|name v l Hp Hq Hn Ho Hl|name v t Hp Hq Hn Ho Ht|name v t Hp Hq Hn Ho Ht];
      cbn [o_valid_before].
    + other_field Hp Hn in_names_1 in_names_4.
    + other_field Hp Hn in_names_2 in_names_4.
    + other_field Hp Hn in_names_3 in_names_4.
    + left. exists name, v, t. repeat (split; [assumption|]). split; [reflexivity|exact Ht].
Qed.
Theorem C63_entry_fields : forall (tz : timezone) (s : bytes) (a : allowed_signer),
  as_from_string tz s = Ok a ->
  exists pw ows kt kd, line_words s (pw :: ows ++ [kt; kd])
  /\ (as_cert_authority a = true <-> exists v, option_of ows (s2b "cert-authority") v)
  /\ (forall l, as_namespaces a = Some l <->
        exists v, option_of ows (s2b "namespaces") v /\ exists items, comma_list items v /\ l = without_empty items)
  /\ (forall t, as_valid_after a = Some t <-> exists v, option_of ows (s2b "valid-after") v /\ stamp tz v t)
  /\ (forall t, as_valid_before a = Some t <-> exists v, option_of ows (s2b "valid-before") v /\ stamp tz v t).
Proof.
  intros tz s a H. apply accepted_iff in H.
  destruct H as (Hq & pw & pt & ows & kt & kd & o & Hw & Hu & Hc & Hne & Ho & Hk & Hp & E1 & E2 & E3 & E4 & Ht).
  exists pw, ows, kt, kd. split; [exact Hw|]. rewrite E1, E2, E3, E4. apply entry_fields, Ho.
Qed.
Print Assumptions C63_entry_fields.

(** A word in the place of an option or key type that is neither rejects the line. *)
Theorem C63_unknown_option_rejected : forall (tz : timezone) (s : bytes) ps o r w r',
  read_so_far tz s ps o r -> line_starts r [w] r' -> word w ->
  (forall n, In n option_names -> forall name v, option_parts w name v -> ~ named name n) ->
  (forall kt, supported kt -> kt_name kt <> w) ->
  exists e, as_from_string tz s = Err (EInvalidAllowedSigner e) /\ (e = ASInvalidKey \/ e = ASInvalidQuotes).
Proof.
  intros tz s ps o r w r' H Hw Hww Hn Hk. destruct (parts_total w) as (name & v & Hp).
  destruct (contains_byte x22 v) eqn:Ev.
  { exists ASInvalidQuotes. split; [|auto]. apply rejected_err. eapply RL_option; [exact H|exact Hw|]. eapply OE_quotes; [exact Hp|apply contains_iff, Ev]. }
  assert (Ho : other_word w).
  { exists name, v. split; [exact Hp|]. split; [intros X; apply contains_iff in X; congruence|]. apply Forall_forall. intros n Hi. eapply Hn; eauto. }
  assert (Hq : ~ ends_in x22 r') by (apply (read_kt _ _ _ _ _ _ _ H Hw Ho)).
  destruct (step_cases r' Hq) as [D|[(kd & r2 & D)|D]].
  - exists ASInvalidKey. split; [|auto]. apply rejected_err. eapply RL_no_key_data; eauto.
  - exists ASInvalidKey. split; [|auto]. apply rejected_err. eapply (RL_key tz s ps o r w kd r2); [exact H|exact (starts_app _ _ _ Hw _ _ D)|exact Ho|].
    intros k E. unfold pk_from_string in E. rewrite split_words_space in E by exact Hww. cbn [nth_error ok_or bind] in E.
    destruct (split_whitespace kd) as [|x0 l0]; cbn [ok_or bind] in E; [discriminate|].
    destruct (kt_from_name w) as [kt| |] eqn:Ek; cbn [bind] in E; try discriminate.
    apply kt_from_name_ok in Ek. destruct Ek as [Ek1 Ek2]. apply (Hk kt); [|symmetry; exact Ek2]. apply supported_known. exact Ek1.
  - exists ASInvalidQuotes. split; [|auto]. apply rejected_err. eapply RL_key_quotes; eauto.
Qed.
Print Assumptions C63_unknown_option_rejected.

Example C63_case :
  as_from_string utc (s2b "a CERT-AUTHORITY cert-authority=no NameSpaces="","" " ++ ex_key_text)
    = Ok (mkSigner [s2b "a"] true (Some []) None None ex_key)
  /\ as_from_string utc (s2b "a namespaces=x NAMESPACES=y nonsense""") = Err (EInvalidAllowedSigner ASInvalidQuotes)
  /\ as_from_string utc (s2b "a namespaces=x NAMESPACES=y nonsense") = Err (EInvalidAllowedSigner (ASDuplicateOptions (s2b "namespaces")))
  /\ as_from_string utc (s2b "a touch-required " ++ ex_key_text) = Err (EInvalidAllowedSigner ASInvalidKey).
Proof. repeat split; vm_compute; reflexivity. Qed.

(** ** C64 *)
Definition digits (k : nat) (l : bytes) : Prop := length l = k /\ Forall digit l.
(** Digits of a time of day: none, hours and minutes, or hours, minutes and seconds. *)
Inductive time_digits : bytes -> Z -> Z -> Z -> Prop :=
| TD_none : time_digits [] 0 0 0
| TD_hm h mi : digits 2 h -> digits 2 mi -> time_digits (h ++ mi) (dec h) (dec mi) 0
| TD_hms h mi s : digits 2 h -> digits 2 mi -> digits 2 s -> time_digits (h ++ mi ++ s) (dec h) (dec mi) (dec s).
Definition written_time (dt : date) (h mi s t : Z) : Prop :=
  calendar_date dt /\ (h <= 23)%Z /\ (mi <= 59)%Z /\ (s <= 60)%Z /\ instant dt h mi (Z.min s 59) t.
Lemma digits_num k l r : 1 <= k -> digits k l -> num_field k (dec l) (l ++ r) r.
Proof. intros Hk [Hl Hf]. exists [], l. split; [constructor|]. split; [exact Hf|]. split; [lia|]. auto. Qed.
Lemma num_field_fun k v r v' r' s : 1 <= k -> num_field k v s r -> num_field k v' s r' -> v = v' /\ r = r'.
Proof. intros Hk H1 H2. apply parse_unsigned_iff in H1, H2; [|lia..]. rewrite H1 in H2. injection H2 as -> ->. auto. Qed.
Lemma year_field_fun v r v' r' s : year_field v s r -> year_field v' s r' -> v = v' /\ r = r'.
Proof. intros H1 H2. apply parse_year_iff in H1, H2. rewrite H1 in H2. injection H2 as -> ->. auto. Qed.
Lemma numbers_fun s dt h mi sec dt' h' mi' sec' : stamp_numbers s dt h mi sec -> stamp_numbers s dt' h' mi' sec' ->
  dt = dt' /\ h = h' /\ mi = mi' /\ sec = sec'.
Proof.
  intros H1 H2. destruct H1; inversion H2; subst; try lia;
  repeat match goal with
  | A : year_field ?v ?s ?r, B : year_field ?v' ?s ?r' |- _ => destruct (year_field_fun _ _ _ _ _ A B) as [? ?]; subst; clear B
  | A : num_field 2 ?v ?s ?r, B : num_field 2 ?v' ?s ?r' |- _ => destruct (num_field_fun 2 _ _ _ _ _ ltac:(lia) A B) as [? ?]; subst; clear B
  end; auto.
Qed.
Lemma digits_numbers y m d time h mi s : digits 4 y -> digits 2 m -> digits 2 d -> time_digits time h mi s ->
  stamp_numbers (y ++ m ++ d ++ time) (dec y, dec m, dec d) h mi s.
Proof.
  intros Hy Hm Hd Ht. assert (Y : forall r, year_field (dec y) (y ++ r) r) by (intros r; left; apply digits_num; [lia|exact Hy]).
  assert (N : forall x r, digits 2 x -> num_field 2 (dec x) (x ++ r) r) by (intros x r Hx; apply digits_num; [lia|exact Hx]).
  destruct Ht as [|h mi Hh Hmi|h mi s Hh Hmi Hs].
  - apply (SN_8 _ _ _ _ (m ++ d ++ []) (d ++ [])); auto. rewrite !app_length. destruct Hy, Hm, Hd. cbn [length]. lia.
  - apply (SN_12 _ _ _ _ _ _ (m ++ d ++ h ++ mi) (d ++ h ++ mi) (h ++ mi) mi); auto.
    + rewrite !app_length. destruct Hy, Hm, Hd, Hh, Hmi. lia.
    + rewrite <- (app_nil_r mi) at 2. auto.
  - apply (SN_14 _ _ _ _ _ _ _ (m ++ d ++ h ++ mi ++ s) (d ++ h ++ mi ++ s) (h ++ mi ++ s) (mi ++ s) s); auto.
    + rewrite !app_length. destruct Hy, Hm, Hd, Hh, Hmi, Hs. lia.
    + rewrite <- (app_nil_r s) at 2. auto.
Qed.
Lemma digits_denote y m d time h mi s t : digits 4 y -> digits 2 m -> digits 2 d -> time_digits time h mi s ->
  (denotes (y ++ m ++ d ++ time) t <-> written_time (dec y, dec m, dec d) h mi s t).
Proof.
  intros Hy Hm Hd Ht. pose proof (digits_numbers y m d time h mi s Hy Hm Hd Ht) as N. unfold denotes, written_time. split.
  - intros (dt & h' & mi' & s' & N' & H). destruct (numbers_fun _ _ _ _ _ _ _ _ _ N' N) as (-> & -> & -> & ->). exact H.
  - intros H. exists (dec y, dec m, dec d), h, mi, s. auto.
Qed.
Lemma time_digits_digits time h mi s : time_digits time h mi s -> Forall digit time.
Proof.
  intros [|? ? [_ ?] [_ ?]|? ? ? [_ ?] [_ ?] [_ ?]]; [constructor|rewrite !Forall_app; auto..].
Qed.
Lemma digits_unquoted l z : Forall digit l -> (z = [] \/ z = [x5a]) -> unquoted (l ++ z) (l ++ z).
Proof.
  intros Hl Hz. exists 0, 0. cbn [repeat app]. split; [rewrite app_nil_r; reflexivity|].
  assert (N : ~ In x22 (l ++ z)).
  { intros H. apply in_app_iff in H. destruct H as [H|H].
    - rewrite Forall_forall in Hl. specialize (Hl _ H). unfold digit in Hl. cbn in Hl. lia.
    - destruct Hz as [->| ->]; [destruct H|destruct H as [H|[]]; discriminate]. }
  split; intros t E; apply N; rewrite E; [left; reflexivity|apply in_app_iff; right; left; reflexivity].
Qed.
Lemma digits_not_z l : Forall digit l -> ~ ends_in x5a l.
Proof.
  intros Hl (t & ->). apply Forall_app in Hl. destruct Hl as [_ Hl]. apply Forall_cons_iff in Hl. destruct Hl as [Hl _]. unfold digit in Hl. cbn in Hl. lia.
Qed.
Lemma written_digits y m d time h mi s : digits 4 y -> digits 2 m -> digits 2 d -> time_digits time h mi s -> Forall digit (y ++ m ++ d ++ time).
Proof. intros [_ Hy] [_ Hm] [_ Hd] Ht. rewrite !Forall_app. repeat split; auto. eapply time_digits_digits, Ht. Qed.
(** Digits with [Z]: the written instant, or rejected. *)
Theorem C64_utc_timestamps : forall (tz : timezone) (y m d time : bytes) (h mi s : Z),
  digits 4 y -> digits 2 m -> digits 2 d -> time_digits time h mi s ->
  let text := y ++ m ++ d ++ time ++ s2b "Z" in
  (forall t, parse_timestamp tz text = Ok t <-> written_time (dec y, dec m, dec d) h mi s t)
  /\ (~ (calendar_date (dec y, dec m, dec d) /\ (h <= 23)%Z /\ (mi <= 59)%Z /\ (s <= 60)%Z) ->
      parse_timestamp tz text = Err (EInvalidAllowedSigner ASInvalidTimestamp))
  /\ (calendar_date (dec y, dec m, dec d) -> (h <= 23)%Z -> (mi <= 59)%Z -> (s <= 60)%Z -> exists t, parse_timestamp tz text = Ok t).
Proof.
  intros tz y m d time h mi s Hy Hm Hd Ht. cbv zeta. change (s2b "Z") with [x5a].
  pose proof (written_digits _ _ _ _ _ _ _ Hy Hm Hd Ht) as Hf.
  replace (y ++ m ++ d ++ time ++ [x5a]) with ((y ++ m ++ d ++ time) ++ [x5a]) by (rewrite <- !app_assoc; reflexivity).
  set (l := y ++ m ++ d ++ time) in *.
  assert (K : forall t, parse_timestamp tz (l ++ [x5a]) = Ok t <-> written_time (dec y, dec m, dec d) h mi s t).
  { intros t. rewrite parse_timestamp_ok, <- (digits_denote _ _ _ _ _ _ _ _ Hy Hm Hd Ht). fold l. split.
    - intros H. pose proof (digits_unquoted l [x5a] Hf (or_intror eq_refl)) as U.
      inversion H as [u body k t' Hu Eb Hz Hb|u t' off Hu Hz Hb Ho]; subst; pose proof (unquoted_fun _ _ _ U Hu) as Eu; subst.
      + destruct (ends_body (l ++ [x5a]) body k) as [_ E1]; [exact Eu|exact Hz|].
        destruct (ends_body (l ++ [x5a]) l 0) as [_ E2]; [reflexivity|apply digits_not_z, Hf|]. congruence.
      + exfalso. apply Hz. eexists. reflexivity.
    - intros H. eapply (St_utc tz _ (l ++ [x5a]) l 0); [apply digits_unquoted; auto|reflexivity|apply digits_not_z, Hf|exact H]. }
  split; [exact K|]. split.
  - intros Hn. destruct (stamp_cases tz (l ++ [x5a])) as [(t & E & _)|[[E _]|[_ E]]].
    + exfalso. apply K in E. destruct E as (A & B & C & D & _). auto.
    + exact E.
    + exfalso. destruct E as (u & t & U & Hz & _). pose proof (digits_unquoted l [x5a] Hf (or_intror eq_refl)) as U'.
      pose proof (unquoted_fun _ _ _ U U'). subst u. apply Hz. eexists. reflexivity.
  - intros A B C D. exists ((days_from_ce (dec y) (dec m) (dec d) - 719163) * 86400 + h * 3600 + mi * 60 + Z.min s 59)%Z.
    apply K. split; [exact A|]. split; [exact B|]. split; [exact C|]. split; [exact D|].
    eexists. split; [apply day_no_iff; [exact A|reflexivity]|reflexivity].
Qed.
Print Assumptions C64_utc_timestamps.

(** Later written times denote later instants. *)
Definition earlier (a b : date) : Prop :=
  let '(y, m, d) := a in let '(y', m', d') := b in
  (y < y' \/ y = y' /\ (m < m' \/ m = m' /\ d < d'))%Z.
Definition time_of_day (h mi s : Z) : Prop := (0 <= h <= 23 /\ 0 <= mi <= 59 /\ 0 <= s <= 59)%Z.
Lemma ordinal_bounds y m d : (1 <= m <= 12)%Z -> (1 <= d <= month_length y m)%Z -> (1 <= ordinal y m d <= 365 + if leap_year y then 1 else 0)%Z.
Proof.
  intros Hm Hd.
  assert (C : (m = 1 \/ m = 2 \/ m = 3 \/ m = 4 \/ m = 5 \/ m = 6 \/ m = 7 \/ m = 8 \/ m = 9 \/ m = 10 \/ m = 11 \/ m = 12)%Z) by lia.
  revert Hd. repeat destruct C as [->|C]; try subst m; unfold ordinal, month_length; crunch; destruct (leap_year y); cbn [andb orb]; lia.
Qed.
Lemma ordinal_mono y m d m' d' : (1 <= m)%Z -> (m < m' <= 12)%Z -> (1 <= d <= month_length y m)%Z -> (1 <= d')%Z -> (ordinal y m d < ordinal y m' d')%Z.
Proof.
  intros Hm Hm' Hd Hd'.
  assert (E : (ordinal y m d < ordinal y (m + 1) d')%Z).
  { rewrite (ordinal_step y m d' (month_length y m)) by (try (apply last_day_month; lia); lia). unfold ordinal. lia. }
  assert (G : forall k, (m + 1 + Z.of_nat k <= 12)%Z -> (ordinal y (m + 1) d' <= ordinal y (m + 1 + Z.of_nat k) d')%Z).
  { induction k as [|k IH]; intros Hk; [rewrite Z.add_0_r; lia|].
    replace (m + 1 + Z.of_nat (S k))%Z with ((m + 1 + Z.of_nat k) + 1)%Z by lia.
    rewrite (ordinal_step y (m + 1 + Z.of_nat k) d' (month_length y (m + 1 + Z.of_nat k))) by (try (apply last_day_month; lia); lia).
    specialize (IH ltac:(lia)). pose proof (month_length_pos y (m + 1 + Z.of_nat k)). unfold ordinal in *. lia. }
  specialize (G (Z.to_nat (m' - m - 1)) ltac:(lia)). replace (m + 1 + Z.of_nat (Z.to_nat (m' - m - 1)))%Z with m' in G by lia. lia.
Qed.
Lemma days_mono a b : calendar_date a -> calendar_date b -> earlier a b ->
  let '(y, m, d) := a in let '(y', m', d') := b in (days_from_ce y m d < days_from_ce y' m' d')%Z.
Proof.
  destruct a as [[y m] d], b as [[y' m'] d']. intros Ha Hb He. apply calendar_iff in Ha, Hb. destruct Ha as [Hm Hd], Hb as [Hm' Hd'].
  cbn in He. destruct He as [He|[-> [He|[-> He]]]].
  - pose proof (ordinal_bounds y m d Hm Hd) as B1. pose proof (ordinal_bounds y' m' d' Hm' Hd') as B2.
    pose proof (year_step y 1 1 m d) as S. rewrite !days_closed in *.
    assert (G : (365 * (y + 1 - 1) + (y + 1 - 1) / 4 - (y + 1 - 1) / 100 + (y + 1 - 1) / 400
      <= 365 * (y' - 1) + (y' - 1) / 4 - (y' - 1) / 100 + (y' - 1) / 400)%Z).
    { clear -He. Z.to_euclidean_division_equations. lia. }
    lia.
  - rewrite !days_closed. pose proof (ordinal_mono y' m d m' d' ltac:(lia) ltac:(lia) Hd ltac:(lia)). lia.
  - rewrite !days_closed. unfold ordinal. lia.
Qed.
Theorem C64_instants_in_order : forall dt dt' h h' mi mi' s s' t t',
  calendar_date dt -> calendar_date dt' -> time_of_day h mi s -> time_of_day h' mi' s' ->
  instant dt h mi s t -> instant dt' h' mi' s' t' ->
  earlier dt dt' \/ dt = dt' /\ (h < h' \/ h = h' /\ (mi < mi' \/ mi = mi' /\ s < s'))%Z ->
  (t < t')%Z.
Proof.
  intros [[y m] d] [[y' m'] d'] h h' mi mi' s s' t t' Hc Hc' Ht Ht' (n & Hn & ->) (n' & Hn' & ->) H. unfold time_of_day in *.
  apply day_no_iff in Hn; [|exact Hc]. apply day_no_iff in Hn'; [|exact Hc']. subst n n'. destruct H as [H|[E H]].
  - pose proof (days_mono (y, m, d) (y', m', d') Hc Hc' H) as M. cbn in M. lia.
  - injection E as -> -> ->. lia.
Qed.
Print Assumptions C64_instants_in_order.

(** The statement for digits only leaves out other accepted texts: blanks and signs count. *)
Theorem C64_only_digits_refuted : exists tz text t,
  parse_timestamp tz text = Ok t /\ ~ Forall digit (firstn 8 text).
Proof.
  exists utc, (s2b "+999 1 1Z"), (-30641760000)%Z. split; [vm_compute; reflexivity|].
  intros H. apply Forall_cons_iff in H. destruct H as [H _]. unfold digit in H. cbn in H. lia.
Qed.
Print Assumptions C64_only_digits_refuted.
(** Second 60 is accepted everywhere and means 59. *)
Theorem C64_leap_second_refuted : exists t,
  parse_timestamp utc (s2b "20240229120060Z") = Ok t /\ parse_timestamp utc (s2b "20240229120059Z") = Ok t.
Proof. exists 1709208059%Z. split; vm_compute; reflexivity. Qed.
Print Assumptions C64_leap_second_refuted.

Example C64_case : parse_timestamp utc (s2b "20240229Z") = Ok 1709164800%Z
  /\ parse_timestamp utc (s2b "20230229Z") = Err (EInvalidAllowedSigner ASInvalidTimestamp)
  /\ parse_timestamp utc (s2b "202402292400Z") = Err (EInvalidAllowedSigner ASInvalidTimestamp)
  /\ digits 4 (s2b "2024") /\ digits 2 (s2b "02") /\ time_digits (s2b "1200" ++ s2b "59") 12 0 59.
Proof.
  assert (D : forall k l, (length l =? k) && forallb is_digit l = true -> digits k l).
  { intros k l H. apply andb_true_iff in H. destruct H as [H1 H2]. apply Nat.eqb_eq in H1. split; [exact H1|].
    apply Forall_forall. intros b Hb. rewrite forallb_forall in H2. apply is_digit_iff, H2, Hb. }
  do 3 (split; [vm_compute; reflexivity|]). split; [apply D; reflexivity|]. split; [apply D; reflexivity|].
  apply (TD_hms (s2b "12") (s2b "00") (s2b "59")); apply D; reflexivity.
Qed.

(** ** C65 *)
(** Digits without [Z]: the time zone decides. *)
Theorem C65_local_timestamps : forall (tz : timezone) (y m d time : bytes) (h mi s local : Z),
  digits 4 y -> digits 2 m -> digits 2 d -> time_digits time h mi s ->
  written_time (dec y, dec m, dec d) h mi s local ->
  let text := y ++ m ++ d ++ time in
  match tz local with
  | Single offset => parse_timestamp tz text = Ok (local - offset)%Z
  | Skipped | Repeated => parse_timestamp tz text = Panic
  end.
Proof.
  intros tz y m d time h mi s local Hy Hm Hd Ht Hw. cbv zeta.
  pose proof (written_digits _ _ _ _ _ _ _ Hy Hm Hd Ht) as Hf. apply (digits_denote _ _ _ _ _ _ _ _ Hy Hm Hd Ht) in Hw.
  set (l := y ++ m ++ d ++ time) in *. pose proof (digits_unquoted l [] Hf (or_introl eq_refl)) as U. rewrite app_nil_r in U.
  destruct (tz local) as [off| |] eqn:E.
  - apply parse_timestamp_ok. eapply St_local; [exact U|apply digits_not_z, Hf|exact Hw|exact E].
  - apply parse_timestamp_panic. exists l, local. split; [exact U|]. split; [apply digits_not_z, Hf|]. split; [exact Hw|]. intros off. rewrite E. discriminate.
  - apply parse_timestamp_panic. exists l, local. split; [exact U|]. split; [apply digits_not_z, Hf|]. split; [exact Hw|]. intros off. rewrite E. discriminate.
Qed.
Print Assumptions C65_local_timestamps.

(** Every text: the accepted ones, the panics, and the rest is rejected as InvalidTimestamp. *)
Theorem C65_every_timestamp : forall (tz : timezone) (text : bytes),
  (forall t, parse_timestamp tz text = Ok t <-> stamp tz text t)
  /\ (parse_timestamp tz text = Panic <-> unmapped tz text)
  /\ (forall e, parse_timestamp tz text = Err e -> e = EInvalidAllowedSigner ASInvalidTimestamp).
Proof.
  intros tz text. split; [intros t; apply parse_timestamp_ok|]. split; [apply parse_timestamp_panic|apply parse_timestamp_err].
Qed.
Print Assumptions C65_every_timestamp.

Example C65_case : parse_timestamp east (s2b "202401010100") = Ok 1704067200%Z
  /\ parse_timestamp changing (s2b "202403310215") = Panic
  /\ parse_timestamp changing (s2b "202410270215") = Panic
  /\ parse_timestamp changing (s2b "202403310215Z") = Ok 1711851300%Z.
Proof. repeat split; vm_compute; reflexivity. Qed.

(** ** C66 *)
Theorem C66_file_is_its_lines : forall (tz : timezone) (s : bytes) (ls : list bytes), lines_of s ls ->
  (forall es, signers_from_string tz s = Ok es <-> entries tz ls es)
  /\ (forall e, signers_from_string tz s = Err e <->
        exists pre l post es t e', ls = pre ++ l :: post /\ entries tz pre es
          /\ ~ no_entry l /\ stripped l t /\ rejected_line tz t e' /\ e = EInvalidAllowedSigners e' (length pre))
  /\ (signers_from_string tz s = Panic <->
        exists pre l post es t, ls = pre ++ l :: post /\ entries tz pre es
          /\ ~ no_entry l /\ stripped l t /\ panicking_line tz t).
Proof.
  intros tz s ls Hl. unfold signers_from_string. rewrite (proj2 (lines_iff s ls) Hl).
  destruct (lines_cases tz ls) as [(es0 & H0)|(pre0 & l0 & t0 & post0 & es0 & E0 & H0 & N0 & S0 & D0)].
  - pose proof (read_lines_all tz ls es0 H0) as R. rewrite R. split; [|split].
    + intros es. split; [intros [= <-]; exact H0|]. intros H. rewrite <- R. apply read_lines_all, H.
    + intros e. split; [discriminate|]. intros (pre & l & post & es & t & e' & -> & H1 & H2 & H3 & H4 & _).
      rewrite (read_lines_err tz pre es l t post e' H1 H2 H3 H4) in R. discriminate.
    + split; [discriminate|]. intros (pre & l & post & es & t & -> & H1 & H2 & H3 & H4).
      rewrite (read_lines_panic tz pre es l t post H1 H2 H3 H4) in R. discriminate.
  - destruct D0 as [(e0 & D0)|D0].
    + assert (R : read_lines tz 0 ls = Err (EInvalidAllowedSigners e0 (length pre0))) by (rewrite E0; eapply read_lines_err; eauto).
      rewrite R. split; [|split].
      * intros es. split; [discriminate|]. intros H. apply read_lines_all in H. congruence.
      * intros e. split.
        -- intros [= <-]. exists pre0, l0, post0, es0, t0, e0. auto 8.
        -- intros (pre & l & post & es & t & e' & E & H1 & H2 & H3 & H4 & ->). rewrite <- R, E. eapply read_lines_err; eauto.
      * split; [discriminate|]. intros (pre & l & post & es & t & E & H1 & H2 & H3 & H4).
        rewrite E, (read_lines_panic tz pre es l t post H1 H2 H3 H4) in R. discriminate.
    + assert (R : read_lines tz 0 ls = Panic) by (rewrite E0; eapply read_lines_panic; eauto).
      rewrite R. split; [|split].
      * intros es. split; [discriminate|]. intros H. apply read_lines_all in H. congruence.
      * intros e. split; [discriminate|]. intros (pre & l & post & es & t & e' & E & H1 & H2 & H3 & H4 & _).
        rewrite E, (read_lines_err tz pre es l t post e' H1 H2 H3 H4) in R. discriminate.
      * split; [|reflexivity]. intros _. exists pre0, l0, post0, es0, t0. auto 8.
Qed.
Print Assumptions C66_file_is_its_lines.

Definition nl : bytes := [x0a].
Example C66_case :
  signers_from_string utc (s2b "# signers" ++ nl ++ s2b "a " ++ ex_key_text ++ [x0d] ++ nl ++ nl ++ s2b "  b cert-authority " ++ ex_key_text ++ s2b " ")
    = Ok [mkSigner [s2b "a"] false None None None ex_key; mkSigner [s2b "b"] true None None None ex_key]
  /\ signers_from_string utc (s2b "# signers" ++ nl ++ s2b "a " ++ ex_key_text ++ nl ++ nl ++ s2b "b" ++ nl)
    = Err (EInvalidAllowedSigners ASMissingKey 3).
Proof. split; vm_compute; reflexivity. Qed.

(** ** C67 *)
Definition plain_item (p : bytes) : Prop := p <> [] /\ plain_text p /\ ~ In x2c p.
Definition plain_key (k : pubkey) : Prop :=
  supported (pk_type k) /\ kt_plain (pk_type k) = kt_name (pk_type k) /\ pk_comment k = None
  /\ exists data, key_data (pk_type k) (pk_kind k) data.
Definition plain_entry (a : allowed_signer) : Prop :=
  as_principals a <> [] /\ Forall plain_item (as_principals a)
  /\ (forall ns, as_namespaces a = Some ns -> Forall plain_item ns)
  /\ plain_key (as_key a).

(** Words with a space in front of each. *)
Definition spaced (ws : list bytes) : bytes := concat (map (fun w => x20 :: w) ws).
Lemma spaced_words ws : Forall line_word ws -> line_words (spaced ws) ws.
Proof.
  induction ws as [|w ws IH]; intros H; [apply LW_end; exists 0; left; reflexivity|].
  apply Forall_cons_iff in H. destruct H as [Hw H]. unfold spaced in *. cbn [map concat].
  apply (LW_word 1 w); [exact Hw| |apply IH, H]. destruct ws; [left; reflexivity|right; left; cbn; eauto].
Qed.
Lemma spaced_line w ws : line_word w -> Forall line_word ws -> line_words (w ++ spaced ws) (w :: ws).
Proof.
  intros Hw H. apply (LW_word 0 w); [exact Hw| |apply spaced_words, H]. destruct ws; [left; reflexivity|right; left; cbn; eauto].
Qed.
Lemma plain_word p : p <> [] -> plain_text p -> line_word p.
Proof. intros Hn Hp. split; [exact Hn|]. exists p, []. rewrite app_nil_r. auto. Qed.
Lemma plain_app a b : plain_text a -> plain_text b -> plain_text (a ++ b).
Proof. intros Ha Hb x Hx. apply in_app_iff in Hx. destruct Hx; auto. Qed.
Lemma join_commas l : join [x2c] l = commas l.
Proof. induction l as [|x [|y l] IH]; [reflexivity..|]. cbn [join commas] in *. rewrite IH. reflexivity. Qed.
Lemma plain_b p : forallb (fun b => negb (is_delim b)) p = true -> plain_text p.
Proof.
  intros H. apply plain_delim. apply Forall_forall. intros b Hb. rewrite forallb_forall in H. apply negb_true_iff, H, Hb.
Qed.
Lemma plain_commas l : Forall plain_item l -> plain_text (commas l).
Proof.
  induction l as [|x l IH]; intros H; [intros b []|]. apply Forall_cons_iff in H. destruct H as [[_ [Hx _]] H].
  destruct l as [|y l]; [exact Hx|]. change (commas (x :: y :: l)) with (x ++ [x2c] ++ commas (y :: l)).
  apply plain_app; [exact Hx|]. apply plain_app; [apply plain_b; reflexivity|apply IH, H].
Qed.
Lemma items_comma l : l <> [] -> Forall plain_item l -> comma_list l (commas l).
Proof. intros Hn H. split; [exact Hn|]. split; [|reflexivity]. eapply Forall_impl; [|exact H]. intros p (_ & _ & Hp). exact Hp. Qed.
Lemma plain_no_quote p : plain_text p -> ~ In x22 p.
Proof. intros H Hi. destruct (H _ Hi) as (_ & E & _). congruence. Qed.
Lemma no_quote_unquoted p : ~ In x22 p -> unquoted p p.
Proof.
  intros H. exists 0, 0. cbn [repeat app]. rewrite app_nil_r. split; [reflexivity|].
  split; intros t E; apply H; rewrite E; [left; reflexivity|apply in_app_iff; right; left; reflexivity].
Qed.
Lemma commas_nonempty l : l <> [] -> Forall plain_item l -> commas l <> [].
Proof.
  intros Hn H. destruct l as [|x l]; [congruence|]. apply Forall_cons_iff in H. destruct H as [[Hx _] _].
  destruct l; cbn [commas]; destruct x; congruence || discriminate.
Qed.
Lemma b64_plain l : plain_text (b64_encode l).
Proof.
  rewrite b64_encode_core. apply plain_app.
  - apply plain_delim. eapply Forall_impl; [|apply b64_core_chars]. intros c (v & Hv & ->).
    assert (G : forallb (fun n => negb (is_delim (b64_char (N.of_nat n)))) (seq 0 64) = true) by (vm_compute; reflexivity).
    rewrite forallb_forall in G. specialize (G (N.to_nat v)). rewrite N2Nat.id in G. apply negb_true_iff, G. apply in_seq. lia.
  - intros b Hb. apply repeat_spec in Hb. subst b. repeat split; discriminate.
Qed.
Lemma b64_nonempty l : l <> [] -> b64_encode l <> [].
Proof. intros Hl E. pose proof (b64_decode_encode l) as D. rewrite E in D. injection D as <-. congruence. Qed.
Definition type_word_ok (n : bytes) : bool :=
  negb (bytes_eqb n []) && forallb (fun b => negb (is_delim b)) n && negb (contains_byte x3d n)
  && forallb (fun m => negb (bytes_eqb (to_lowercase n) m)) option_names.
Lemma type_words kt : known kt -> type_word_ok (kt_name kt) = true.
Proof.
  revert kt. apply known_forall. apply Forall_forall. apply forallb_forall. vm_compute. reflexivity.
Qed.
Lemma type_word kt : known kt -> line_word (kt_name kt) /\ other_word (kt_name kt) /\ ~ In x22 (kt_name kt).
Proof.
  intros H. apply type_words in H. unfold type_word_ok in H. rewrite !andb_true_iff in H. destruct H as [[[H1 H2] H3] H4].
  apply plain_b in H2. assert (Hn : kt_name kt <> []) by (intros E; rewrite E in H1; discriminate).
  split; [apply plain_word; assumption|]. split; [|apply plain_no_quote, H2].
  exists (kt_name kt), []. split.
  - exists []. split; [apply no_quote_unquoted; intros []|]. split; [|auto]. intros Hi. apply contains_iff in Hi. rewrite Hi in H3. discriminate.
  - split; [intros []|]. apply Forall_forall. intros n Hn'. rewrite forallb_forall in H4. specialize (H4 n Hn').
    intros X. apply (is_named _ _ Hn') in X. rewrite X in H4. discriminate.
Qed.
Lemma plain_key_text k : plain_key k -> exists e, pk_display k = Ok (kt_name (pk_type k) ++ [x20] ++ b64_encode e)
  /\ e <> [] /\ pk_from_string (kt_name (pk_type k) ++ [x20] ++ b64_encode e) = Ok k.
Proof.
  intros (Hs & Hp & Hc & data & Hd).
  destruct (C23_single_word_comment k data Hs Hp Hd) as (t & Ht & Hf); [rewrite Hc; exact I|].
  unfold pk_display in *. destruct (pk_encode k) as [e| |] eqn:Ee; try discriminate. cbn [bind] in *. rewrite Hc in *. exists e.
  split; [reflexivity|]. injection Ht as <-. split; [|exact Hf].
  apply key_data_iff in Hd. destruct Hd as [Hok _]. apply supported_known in Hs. rewrite pk_encode_enc in Ee; [|exact Hs|rewrite (canon_ok _ _ Hok); exact Hok].
  injection Ee as <-. apply enc_bytes_nonempty.
Qed.
(** The words of a printed entry. *)
Definition cert_words (a : allowed_signer) : list bytes := if as_cert_authority a then [s2b "cert-authority"] else [].
Definition ns_words (a : allowed_signer) : list bytes :=
  match as_namespaces a with Some ns => [s2b "namespaces=" ++ commas ns] | None => [] end.
Definition bound_words (n : bytes) (t : option Z) : list bytes := match t with Some t => [n ++ display_z t] | None => [] end.
Definition entry_words (a : allowed_signer) : list bytes :=
  cert_words a ++ ns_words a ++ bound_words (s2b "valid-after=") (as_valid_after a) ++ bound_words (s2b "valid-before=") (as_valid_before a).
Lemma display_line a key : pk_display (as_key a) = Ok key ->
  as_display a = Ok (commas (as_principals a) ++ spaced (entry_words a) ++ x20 :: key).
Proof.
  intros H. unfold as_display, entry_words, cert_words, ns_words, bound_words. rewrite H. cbn [bind]. f_equal. rewrite join_commas.
  destruct (as_cert_authority a), (as_namespaces a), (as_valid_after a), (as_valid_before a); unfold spaced;
    change (s2b " cert-authority") with (x20 :: s2b "cert-authority"); change (s2b " namespaces=") with (x20 :: s2b "namespaces=");
    change (s2b " valid-after=") with (x20 :: s2b "valid-after="); change (s2b " valid-before=") with (x20 :: s2b "valid-before=");
    rewrite ?join_commas; repeat (progress (rewrite <- ?app_assoc, ?app_nil_r; cbn [app map concat])); reflexivity.
Qed.
Lemma spaced_app a b : spaced (a ++ b) = spaced a ++ spaced b.
Proof. unfold spaced. rewrite map_app, concat_app. reflexivity. Qed.
Lemma display_words_line a : plain_entry a -> exists e,
  as_display a = Ok (commas (as_principals a) ++ spaced (entry_words a ++ [kt_name (pk_type (as_key a)); b64_encode e]))
  /\ e <> [] /\ pk_from_string (kt_name (pk_type (as_key a)) ++ [x20] ++ b64_encode e) = Ok (as_key a).
Proof.
  intros (_ & _ & _ & Hk). destruct (plain_key_text _ Hk) as (e & He & Hn & Hf). exists e. split; [|auto].
  rewrite (display_line a _ He). f_equal. f_equal. rewrite spaced_app. f_equal. unfold spaced. cbn [map concat app]. rewrite app_nil_r. reflexivity.
Qed.
Lemma no_eq l : contains_byte x3d l = false -> ~ In x3d l.
Proof. intros H Hi. apply contains_iff in Hi. congruence. Qed.
Lemma cert_option tz a o : option_words tz o (cert_words a)
  (mkOptions (as_cert_authority a || o_cert_authority o) (o_namespaces o) (o_valid_after o) (o_valid_before o)).
Proof.
  unfold cert_words. destruct (as_cert_authority a); [|destruct o; constructor].
  econstructor; [|constructor]. cbn [orb]. eapply (OW_cert_authority tz o _ (s2b "cert-authority") []); [|intros []|].
  - exists []. split; [apply no_quote_unquoted; intros []|]. split; [|auto]. intros H. apply contains_iff in H. discriminate.
  - apply (is_named _ _ in_names_1). reflexivity.
Qed.
Lemma plain_filter l : Forall plain_item l -> without_empty l = l.
Proof.
  induction l as [|x l IH]; intros H; [reflexivity|]. apply Forall_cons_iff in H. destruct H as [[Hx _] H].
  unfold without_empty in *. cbn [filter]. destruct x; [congruence|]. cbn [length Nat.eqb negb]. f_equal. apply IH, H.
Qed.
Lemma ns_option tz a o : (forall ns, as_namespaces a = Some ns -> Forall plain_item ns) -> o_namespaces o = None ->
  option_words tz o (ns_words a) (mkOptions (o_cert_authority o) (as_namespaces a) (o_valid_after o) (o_valid_before o)).
Proof.
  intros Hn Ho. unfold ns_words. destruct (as_namespaces a) as [ns|]; [|destruct o; cbn in *; subst; constructor].
  specialize (Hn ns eq_refl). econstructor; [|constructor].
  assert (Q : ~ In x22 (commas ns)) by (apply plain_no_quote, plain_commas, Hn).
  assert (P : option_parts (s2b "namespaces=" ++ commas ns) (s2b "namespaces") (commas ns)).
  { exists (commas ns). split; [apply no_quote_unquoted, Q|]. split; [|left; reflexivity]. intros H. apply contains_iff in H. discriminate. }
  assert (N : named (s2b "namespaces") (s2b "namespaces")) by (apply (is_named _ _ in_names_2); reflexivity).
  destruct ns as [|x ns].
  - apply (OW_namespaces tz o _ (s2b "namespaces") [] [[]]); auto. split; [discriminate|]. split; [|reflexivity]. constructor; [intros []|constructor].
  - pose proof (OW_namespaces tz o _ (s2b "namespaces") _ (x :: ns) P Q N Ho (items_comma _ (fun E => nil_cons (eq_sym E)) Hn)) as W.
    rewrite plain_filter in W by exact Hn. exact W.
Qed.
Lemma option_words_app tz o a o1 b o2 : option_words tz o a o1 -> option_words tz o1 b o2 -> option_words tz o (a ++ b) o2.
Proof. induction 1; intros H2; [exact H2|]. cbn [app]. econstructor; eauto. Qed.
Lemma cert_line_words a : Forall line_word (cert_words a).
Proof.
  unfold cert_words. destruct (as_cert_authority a); constructor; [|constructor]. apply plain_word; [discriminate|apply plain_b; reflexivity].
Qed.
Lemma ns_line_words a : (forall ns, as_namespaces a = Some ns -> Forall plain_item ns) -> Forall line_word (ns_words a).
Proof.
  intros H. unfold ns_words. destruct (as_namespaces a) as [ns|]; constructor; [|constructor].
  apply plain_word; [discriminate|]. apply plain_app; [apply plain_b; reflexivity|apply plain_commas, H; reflexivity].
Qed.
Lemma plain_not_ends l : plain_text l -> ~ ends_in x22 l.
Proof. intros H (t & ->). apply (plain_no_quote _ H). apply in_app_iff. right. left. reflexivity. Qed.
Theorem C67_printed_entries : forall (tz : timezone) (a : allowed_signer),
  plain_entry a -> as_valid_after a = None -> as_valid_before a = None ->
  exists line, as_display a = Ok line /\ as_from_string tz line = Ok a.
Proof.
  intros tz a Ha Hva Hvb. destruct (display_words_line a Ha) as (e & E & He & Hk). destruct Ha as (Hp & Hpp & Hns & Hs & Ht & Hc & Hd).
  unfold entry_words in E. rewrite Hva, Hvb in E. cbn [bound_words] in E. rewrite !app_nil_r in E.
  eexists. split; [exact E|]. apply supported_known in Hs. destruct (type_word _ Hs) as (Ht1 & Ht2 & Ht3).
  apply accepted_iff. split.
  { rewrite !spaced_app. unfold spaced at 3. cbn [map concat]. rewrite app_nil_r, !app_assoc.
    intros H. change (x20 :: b64_encode e) with ([x20] ++ b64_encode e) in H. rewrite !app_assoc in H.
    eapply plain_not_ends; [apply (b64_plain e)|]. eapply ends_in_tail; [apply b64_nonempty, He|]. rewrite ?app_assoc in *. exact H. }
  exists (commas (as_principals a)), (commas (as_principals a)), (cert_words a ++ ns_words a), (kt_name (pk_type (as_key a))), (b64_encode e),
    (mkOptions (as_cert_authority a) (as_namespaces a) None None).
  split; [|split; [|split; [|split; [|split; [|split; [|split]]]]]].
  - apply spaced_line; [apply plain_word; [apply commas_nonempty; assumption|apply plain_commas, Hpp]|].
    rewrite !Forall_app. split; [split; [apply cert_line_words|apply ns_line_words, Hns]|].
    constructor; [exact Ht1|]. constructor; [apply plain_word; [apply b64_nonempty, He|apply b64_plain]|constructor].
  - apply no_quote_unquoted, plain_no_quote, plain_commas, Hpp.
  - apply items_comma; assumption.
  - eapply Forall_impl; [|exact Hpp]. intros p (H & _). exact H.
  - eapply option_words_app; [apply cert_option|]. pose proof (ns_option tz a (mkOptions (as_cert_authority a || false) None None None) Hns eq_refl) as W.
    cbn [o_cert_authority o_namespaces o_valid_after o_valid_before no_options] in *. rewrite orb_false_r in *. exact W.
  - exact Ht2.
  - exact Hk.
  - cbn. rewrite Hva, Hvb. repeat split. intros x y. discriminate.
Qed.
Print Assumptions C67_printed_entries.

(** The whole printed line. *)
Definition optional {A} (P : A -> bytes -> Prop) (o : option A) (t : bytes) : Prop :=
  match o with Some x => P x t | None => t = [] end.
Theorem C67_printed_form : forall (a : allowed_signer) (key : bytes), pk_display (as_key a) = Ok key ->
  exists namespaces after before,
    optional (fun l t => t = s2b " namespaces=" ++ commas l) (as_namespaces a) namespaces
    /\ optional (fun x t => exists d, decimal_text x d /\ t = s2b " valid-after=" ++ d) (as_valid_after a) after
    /\ optional (fun x t => exists d, decimal_text x d /\ t = s2b " valid-before=" ++ d) (as_valid_before a) before
    /\ as_display a = Ok (commas (as_principals a) ++ (if as_cert_authority a then s2b " cert-authority" else [])
         ++ namespaces ++ after ++ before ++ s2b " " ++ key).
Proof.
  intros a key H. unfold as_display. rewrite H. cbn [bind]. rewrite join_commas.
  exists (match as_namespaces a with Some l => s2b " namespaces=" ++ commas l | None => [] end).
  exists (match as_valid_after a with Some x => s2b " valid-after=" ++ display_z x | None => [] end).
  exists (match as_valid_before a with Some x => s2b " valid-before=" ++ display_z x | None => [] end).
  split; [destruct (as_namespaces a); reflexivity|].
  split; [destruct (as_valid_after a) as [x|]; [exists (display_z x); split; [apply display_z_decimal|reflexivity]|reflexivity]|].
  split; [destruct (as_valid_before a) as [x|]; [exists (display_z x); split; [apply display_z_decimal|reflexivity]|reflexivity]|].
  f_equal. change [space] with (s2b " ").
  destruct (as_cert_authority a), (as_namespaces a), (as_valid_after a), (as_valid_before a); rewrite ?join_commas, <- ?app_assoc, ?app_nil_l; reflexivity.
Qed.
Print Assumptions C67_printed_form.

(** Bounds are printed as decimal Unix times and read back as calendar times. *)
Definition reread (tz : timezone) (t t' : option Z) : Prop :=
  match t, t' with
  | None, None => True
  | Some x, Some y => stamp tz (display_z x) y
  | _, _ => False
  end.
Definition unreadable (tz : timezone) (t : option Z) : Prop :=
  exists x, t = Some x /\ (forall y, ~ stamp tz (display_z x) y) /\ ~ unmapped tz (display_z x).
Definition with_bounds (a : allowed_signer) (va vb : option Z) : allowed_signer :=
  mkSigner (as_principals a) (as_cert_authority a) (as_namespaces a) va vb (as_key a).
Lemma digits_plain l : Forall digit l -> plain_text l.
Proof.
  intros H b Hb. rewrite Forall_forall in H. specialize (H b Hb). unfold digit in H. repeat split; intros ->; cbn in H; lia.
Qed.
Lemma display_z_plain z : plain_text (display_z z).
Proof.
  destruct (decimal_spec (Z.abs_N z)) as (ds & E & H & _). unfold display_z. rewrite E. destruct (z <? 0)%Z; [|apply digits_plain, H].
  apply (plain_app [x2d]); [apply plain_b; reflexivity|apply digits_plain, H].
Qed.
Lemma bound_parts n z : ~ In x3d n -> option_parts ((n ++ [x3d]) ++ display_z z) n (display_z z) /\ ~ In x22 (display_z z).
Proof.
  intros Hn. pose proof (plain_no_quote _ (display_z_plain z)) as Q. split; [|exact Q].
  exists (display_z z). split; [apply no_quote_unquoted, Q|]. split; [exact Hn|]. left. rewrite <- app_assoc. reflexivity.
Qed.
Lemma bound_line_words n t : plain_text n -> n <> [] -> Forall line_word (bound_words n t).
Proof.
  intros Hp Hn. destruct t as [t|]; constructor; [|constructor]. apply plain_word; [destruct n; [congruence|discriminate]|].
  apply plain_app; [exact Hp|apply display_z_plain].
Qed.
Lemma after_option tz o t t' : reread tz t t' -> o_valid_after o = None ->
  option_words tz o (bound_words (s2b "valid-after=") t) (mkOptions (o_cert_authority o) (o_namespaces o) t' (o_valid_before o)).
Proof.
  intros Hr Ho. destruct t as [x|], t' as [y|]; try contradiction; cbn [bound_words].
  - destruct (bound_parts (s2b "valid-after") x) as [P Q]; [apply no_eq; reflexivity|]. econstructor; [|constructor].
    eapply OW_valid_after; [exact P|exact Q| |exact Ho|exact Hr]. apply (is_named _ _ in_names_3). reflexivity.
  - destruct o. cbn in *. subst. constructor.
Qed.
Lemma before_option tz o t t' : reread tz t t' -> o_valid_before o = None ->
  option_words tz o (bound_words (s2b "valid-before=") t) (mkOptions (o_cert_authority o) (o_namespaces o) (o_valid_after o) t').
Proof.
  intros Hr Ho. destruct t as [x|], t' as [y|]; try contradiction; cbn [bound_words].
  - destruct (bound_parts (s2b "valid-before") x) as [P Q]; [apply no_eq; reflexivity|]. econstructor; [|constructor].
    eapply OW_valid_before; [exact P|exact Q| |exact Ho|exact Hr]. apply (is_named _ _ in_names_4). reflexivity.
  - destruct o. cbn in *. subst. constructor.
Qed.
Lemma bound_error tz o n t : unreadable tz t -> In n option_names -> first_bound o n n -> ~ In x3d n ->
  exists w, bound_words (n ++ [x3d]) t = [w] /\ option_error tz o w (ASInvalidOption n).
Proof.
  intros (x & -> & H1 & H2) Hn Hb He. eexists. split; [reflexivity|]. destruct (bound_parts n x He) as [P Q].
  eapply OE_time; eauto.
Qed.
Lemma spaced_starts ws ws' : Forall line_word ws -> line_starts (spaced (ws ++ ws')) ws (spaced ws').
Proof.
  intros H. induction ws as [|w ws IH]; [constructor|]. apply Forall_cons_iff in H. destruct H as [Hw H]. cbn [app]. unfold spaced in *. cbn [map concat].
  apply (LS_word 1 w); [exact Hw| |apply IH, H]. destruct (ws ++ ws'); [left; reflexivity|right; left; cbn; eauto].
Qed.
Lemma spaced_line_starts w ws ws' : line_word w -> Forall line_word ws -> line_starts (w ++ spaced (ws ++ ws')) (w :: ws) (spaced ws').
Proof.
  intros Hw H. apply (LS_word 0 w); [exact Hw| |apply spaced_starts, H]. destruct (ws ++ ws'); [left; reflexivity|right; left; cbn; eauto].
Qed.
(** The words in front of the key, and the options they set. *)
Lemma printed_so_far tz a ws o tail : plain_entry a -> Forall line_word ws -> option_words tz no_options ws o ->
  ~ ends_in x22 (commas (as_principals a) ++ spaced (ws ++ tail)) ->
  read_so_far tz (commas (as_principals a) ++ spaced (ws ++ tail)) (as_principals a) o (spaced tail).
Proof.
  intros (Hp & Hpp & _) Hw Ho Hq. split; [exact Hq|]. exists (commas (as_principals a)), (commas (as_principals a)), ws.
  split; [apply spaced_line_starts; [apply plain_word; [apply commas_nonempty; assumption|apply plain_commas, Hpp]|exact Hw]|].
  split; [apply no_quote_unquoted, plain_no_quote, plain_commas, Hpp|]. split; [apply items_comma; assumption|]. split; [|exact Ho].
  eapply Forall_impl; [|exact Hpp]. intros p (H & _). exact H.
Qed.
Lemma printed_no_quote ps ws kt e : e <> [] -> ~ ends_in x22 (commas ps ++ spaced (ws ++ [kt; b64_encode e])).
Proof.
  intros He H. change [kt; b64_encode e] with ([kt] ++ [b64_encode e]) in H. rewrite app_assoc, spaced_app in H.
  replace (spaced [b64_encode e]) with ([x20] ++ b64_encode e) in H by (unfold spaced; cbn [map concat]; rewrite app_nil_r; reflexivity).
  rewrite !app_assoc in H. eapply plain_not_ends; [apply (b64_plain e)|]. eapply ends_in_tail; [apply b64_nonempty, He|exact H].
Qed.
Lemma first_options tz a : (forall ns, as_namespaces a = Some ns -> Forall plain_item ns) ->
  option_words tz no_options (cert_words a ++ ns_words a) (mkOptions (as_cert_authority a) (as_namespaces a) None None).
Proof.
  intros Hns. eapply option_words_app; [apply cert_option|].
  pose proof (ns_option tz a (mkOptions (as_cert_authority a || false) None None None) Hns eq_refl) as W.
  cbn [o_cert_authority o_namespaces o_valid_after o_valid_before no_options] in *. rewrite orb_false_r in *. exact W.
Qed.
Theorem C67_printed_bounds : forall (tz : timezone) (a : allowed_signer), plain_entry a ->
  exists line, as_display a = Ok line
    /\ (forall va vb, reread tz (as_valid_after a) va -> reread tz (as_valid_before a) vb ->
          (forall x y, va = Some x -> vb = Some y -> (x < y)%Z) -> as_from_string tz line = Ok (with_bounds a va vb))
    /\ (forall x y, reread tz (as_valid_after a) (Some x) -> reread tz (as_valid_before a) (Some y) -> (y <= x)%Z ->
          as_from_string tz line = Err (EInvalidAllowedSigner ASInvalidTimestamps))
    /\ (unreadable tz (as_valid_after a) ->
          as_from_string tz line = Err (EInvalidAllowedSigner (ASInvalidOption (s2b "valid-after"))))
    /\ (forall va, reread tz (as_valid_after a) va -> unreadable tz (as_valid_before a) ->
          as_from_string tz line = Err (EInvalidAllowedSigner (ASInvalidOption (s2b "valid-before")))).
Proof.
  intros tz a Ha. destruct (display_words_line a Ha) as (e & E & He & Hk). pose proof Ha as (Hp & Hpp & Hns & Hs & Ht & Hc & Hd).
  exists (commas (as_principals a) ++ spaced (entry_words a ++ [kt_name (pk_type (as_key a)); b64_encode e])). split; [exact E|]. clear E.
  apply supported_known in Hs. destruct (type_word _ Hs) as (Ht1 & Ht2 & Ht3). set (kt := kt_name (pk_type (as_key a))) in *.
  pose proof (printed_no_quote (as_principals a) (entry_words a) kt e He) as Q.
  assert (W2 : Forall line_word [kt; b64_encode e]).
  { constructor; [exact Ht1|]. constructor; [apply plain_word; [apply b64_nonempty, He|apply b64_plain]|constructor]. }
  assert (WA : Forall line_word (bound_words (s2b "valid-after=") (as_valid_after a))) by (apply bound_line_words; [apply plain_b; reflexivity|discriminate]).
  assert (WB : Forall line_word (bound_words (s2b "valid-before=") (as_valid_before a))) by (apply bound_line_words; [apply plain_b; reflexivity|discriminate]).
  pose proof (cert_line_words a) as WC. pose proof (ns_line_words a Hns) as WN.
  pose proof (first_options tz a Hns) as F0.
  assert (F1 : forall va, reread tz (as_valid_after a) va -> option_words tz no_options
    ((cert_words a ++ ns_words a) ++ bound_words (s2b "valid-after=") (as_valid_after a)) (mkOptions (as_cert_authority a) (as_namespaces a) va None)).
  { intros va Hv. eapply option_words_app; [exact F0|]. exact (after_option tz (mkOptions (as_cert_authority a) (as_namespaces a) None None) _ va Hv eq_refl). }
  assert (F2 : forall va vb, reread tz (as_valid_after a) va -> reread tz (as_valid_before a) vb ->
    option_words tz no_options (entry_words a) (mkOptions (as_cert_authority a) (as_namespaces a) va vb)).
  { intros va vb Hv Hb. unfold entry_words. rewrite !app_assoc. eapply option_words_app; [apply F1, Hv|].
    exact (before_option tz (mkOptions (as_cert_authority a) (as_namespaces a) va None) _ vb Hb eq_refl). }
  assert (WE : Forall line_word (entry_words a)) by (unfold entry_words; rewrite !Forall_app; auto).
  assert (S2 : line_starts (spaced [kt; b64_encode e]) [kt; b64_encode e] []).
  { pose proof (spaced_starts [kt; b64_encode e] [] W2) as X. rewrite app_nil_r in X. exact X. }
  split; [|split; [|split]].
  - intros va vb Hv Hb Ho. apply accepted_iff, accepted_so_far.
    exists (as_principals a), (mkOptions (as_cert_authority a) (as_namespaces a) va vb), (spaced [kt; b64_encode e]), kt, (b64_encode e), [], (as_key a).
    split; [apply printed_so_far; auto|]. split; [exact S2|]. split; [exact Ht2|]. split; [exact Hk|]. split; [exact Ho|].
    split; [exists 0; left; reflexivity|reflexivity].
  - intros x y Hv Hb Ho. apply rejected_err.
    eapply (RL_order tz _ (as_principals a) (mkOptions (as_cert_authority a) (as_namespaces a) (Some x) (Some y)) (spaced [kt; b64_encode e]));
      [apply printed_so_far; auto|exact S2|exact Ht2|exact Hk|]. intros C. specialize (C x y eq_refl eq_refl). lia.
  - intros Hu. apply rejected_err.
    destruct (bound_error tz (mkOptions (as_cert_authority a) (as_namespaces a) None None) (s2b "valid-after") _ Hu in_names_3) as (w & Ew & Ho).
    { split; [left; auto|]. apply (is_named _ _ in_names_3). reflexivity. } { apply no_eq. reflexivity. }
    change (s2b "valid-after" ++ [x3d]) with (s2b "valid-after=") in Ew. rewrite Ew in WA.
    unfold entry_words in *. rewrite Ew in *. rewrite <- !app_assoc in *. rewrite !app_assoc in *.
    set (tail := bound_words _ _) in *. rewrite <- !app_assoc in Q |- *. rewrite (app_assoc (cert_words a)) in Q |- *.
    eapply RL_option; [apply printed_so_far; [exact Ha|rewrite Forall_app; auto|exact F0|exact Q]|apply (spaced_starts [w]), WA|exact Ho].
  - intros va Hv Hu. apply rejected_err.
    destruct (bound_error tz (mkOptions (as_cert_authority a) (as_namespaces a) va None) (s2b "valid-before") _ Hu in_names_4) as (w & Ew & Ho).
    { split; [right; auto|]. apply (is_named _ _ in_names_4). reflexivity. } { apply no_eq. reflexivity. }
    change (s2b "valid-before" ++ [x3d]) with (s2b "valid-before=") in Ew. rewrite Ew in WB.
    unfold entry_words in *. rewrite Ew in *. rewrite (app_assoc (cert_words a)) in *. rewrite (app_assoc (cert_words a ++ _)) in *.
    rewrite <- (app_assoc _ [w]) in Q |- *.
    eapply RL_option; [apply printed_so_far; [exact Ha|rewrite !Forall_app; auto|apply F1, Hv|exact Q]|apply (spaced_starts [w]), WB|exact Ho].
Qed.
Print Assumptions C67_printed_bounds.

(** A time after 1970 is read back only if it happens to have 8, 12 or 14 digits. *)
Definition digit_count (k : Z) (x : Z) : Prop := (10 ^ (k - 1) <= x < 10 ^ k)%Z.
Lemma display_length x k : (0 <= x)%Z -> length (display_z x) = S (S k) -> digit_count (Z.of_nat (S (S k))) x.
Proof.
  intros Hx Hl. unfold display_z in Hl. replace (x <? 0)%Z with false in Hl by lia.
  destruct (decimal_spec (Z.abs_N x)) as (ds & E & _ & _ & _ & H1 & H2). rewrite E in Hl. rewrite Hl in *.
  assert (N0 : Z.abs_N x <> 0%N).
  { intros Z0. rewrite Z0 in E. change (decimal 0) with [x30] in E. subst ds. discriminate. }
  specialize (H1 N0). unfold digit_count. replace (Z.of_nat (S (S k)) - 1)%Z with (Z.of_nat (S k)) by lia.
  replace (S (S k) - 1) with (S k) in H1 by lia.
  split.
  - apply N2Z.inj_le in H1. rewrite N2Z.inj_pow, nat_N_Z, N2Z.inj_abs_N, Z.abs_eq in H1 by lia. exact H1.
  - apply N2Z.inj_lt in H2. rewrite N2Z.inj_pow, nat_N_Z, N2Z.inj_abs_N, Z.abs_eq in H2 by lia. exact H2.
Qed.
Lemma stamp_numbers_length text dt h mi s : stamp_numbers text dt h mi s -> length text = 8 \/ length text = 12 \/ length text = 14.
Proof. destruct 1; auto. Qed.
Lemma display_digits x : (0 <= x)%Z -> Forall digit (display_z x).
Proof.
  intros Hx. unfold display_z. replace (x <? 0)%Z with false by lia. destruct (decimal_spec (Z.abs_N x)) as (ds & -> & H & _). exact H.
Qed.
Lemma usual_unreadable tz x : (0 <= x)%Z -> ~ digit_count 8 x -> ~ digit_count 12 x -> ~ digit_count 14 x -> unreadable tz (Some x).
Proof.
  intros Hx H8 H12 H14. exists x. split; [reflexivity|].
  assert (D : forall t, ~ denotes (display_z x) t).
  { intros t (dt & h & mi & s & Hn & _). apply stamp_numbers_length in Hn.
    destruct Hn as [Hn|[Hn|Hn]]; apply (display_length x _ Hx) in Hn; tauto. }
  pose proof (display_digits x Hx) as F. pose proof (digits_unquoted _ [] F (or_introl eq_refl)) as U. rewrite app_nil_r in U.
  split.
  - intros y Hy. inversion Hy as [u body k t Hu Eb Hz Hb|u t off Hu Hz Hb Ho]; subst.
    + pose proof (unquoted_fun _ _ _ U Hu) as Eu. apply (digits_not_z _ F). rewrite Eu. cbn [repeat].
      exists (body ++ repeat x5a k). rewrite <- app_assoc. f_equal. apply repeat_cons.
    + pose proof (unquoted_fun _ _ _ U Hu) as Eu. rewrite <- Eu in Hb. eapply D, Hb.
  - intros (u & t & Hu & _ & Hb & _). pose proof (unquoted_fun _ _ _ U Hu) as Eu. rewrite <- Eu in Hb. eapply D, Hb.
Qed.
Theorem C67_usual_bounds_not_readable : forall (tz : timezone) (a : allowed_signer) (x : Z),
  plain_entry a -> as_valid_after a = Some x \/ as_valid_after a = None /\ as_valid_before a = Some x ->
  (0 <= x)%Z -> ~ digit_count 8 x -> ~ digit_count 12 x -> ~ digit_count 14 x ->
  exists line n, as_display a = Ok line
    /\ as_from_string tz line = Err (EInvalidAllowedSigner (ASInvalidOption n)).
Proof.
  intros tz a x Ha Hb Hx H8 H12 H14. pose proof (usual_unreadable tz x Hx H8 H12 H14) as U.
  destruct (C67_printed_bounds tz a Ha) as (line & E & _ & _ & P3 & P4).
  destruct Hb as [Hb|[Hn Hb]].
  - exists line, (s2b "valid-after"). split; [exact E|]. apply P3. rewrite Hb. exact U.
  - exists line, (s2b "valid-before"). split; [exact E|]. apply (P4 None); [rewrite Hn; exact I|rewrite Hb; exact U].
Qed.
Print Assumptions C67_usual_bounds_not_readable.

(** Printing then parsing can also give another entry: the time is read as a date. *)
Theorem C67_round_trip_refuted : exists a line a',
  plain_entry a /\ as_display a = Ok line /\ as_from_string utc line = Ok a' /\ a' <> a.
Proof.
  exists (mkSigner [s2b "a"] false None (Some 19990101%Z) None ex_key). do 2 eexists.
  split; [|split; [vm_compute; reflexivity|split; [vm_compute; reflexivity|discriminate]]].
  split; [discriminate|]. split.
  { constructor; [|constructor]. split; [discriminate|]. split; [apply plain_b; reflexivity|]. intros [H|[]]. discriminate. }
  split; [discriminate|]. split; [reflexivity|]. split; [reflexivity|]. split; [reflexivity|].
  exists (enc_kind (pk_kind ex_key)). apply kd_intro. cbn. unfold ReaderFacts.fits. cbn. repeat split; lia.
Qed.
Print Assumptions C67_round_trip_refuted.

Example C67_case : exists line, as_display (mkSigner [s2b "a@b"; s2b "c"] true (Some [s2b "git"; s2b "file"]) None None ex_key) = Ok line
  /\ line = s2b "a@b,c cert-authority namespaces=git,file " ++ ex_key_text
  /\ as_from_string utc line = Ok (mkSigner [s2b "a@b"; s2b "c"] true (Some [s2b "git"; s2b "file"]) None None ex_key).
Proof. eexists. split; [vm_compute; reflexivity|]. split; vm_compute; reflexivity. Qed.
Example C67_case_bounds :
  as_display (mkSigner [s2b "a"] false None (Some 1700000000%Z) None ex_key) = Ok (s2b "a valid-after=1700000000 " ++ ex_key_text)
  /\ as_from_string utc (s2b "a valid-after=1700000000 " ++ ex_key_text)
     = Err (EInvalidAllowedSigner (ASInvalidOption (s2b "valid-after"))).
Proof. split; vm_compute; reflexivity. Qed.

(** ** C68 *)
(** A line that ends in a double quote is never accepted. *)
Theorem C68_final_quote_rejected : forall (tz : timezone) (s : bytes),
  ends_in x22 s -> exists e, as_from_string tz s = Err (EInvalidAllowedSigner e).
Proof.
  intros tz s Hs. destruct (line_total tz s) as [(a & H)|[(e & H)|(ps & o & r & w & r' & H & _)]].
  - destruct H as [H _]. contradiction.
  - exists e. apply rejected_err, H.
  - destruct H as [H _]. contradiction.
Qed.
Print Assumptions C68_final_quote_rejected.

Lemma no_words_comment l c : no_words l -> no_words (l ++ x23 :: c).
Proof.
  intros (n & [->|(d & ->)]); exists n; right; [exists c; reflexivity|]. exists (d ++ x23 :: c). rewrite <- app_assoc. reflexivity.
Qed.
Lemma word_ends_comment l c : word_ends l -> word_ends (l ++ x23 :: c).
Proof. intros [->|[(r & ->)|(r & ->)]]; [right; right; exists c; reflexivity|right; left; eexists; reflexivity|right; right; eexists; reflexivity]. Qed.
Lemma line_words_comment l ws c : line_words l ws -> line_words (l ++ x23 :: c) ws.
Proof.
  induction 1 as [l H|n w rest ws Hw He _ IH]; [apply LW_end, no_words_comment, H|].
  replace ((repeat x20 n ++ w ++ rest) ++ x23 :: c) with (repeat x20 n ++ w ++ (rest ++ x23 :: c)) by (rewrite <- !app_assoc; reflexivity).
  apply LW_word; [exact Hw|apply word_ends_comment, He|exact IH].
Qed.
(** An accepted line stays accepted, with the same entry, when a comment follows, unless
    the comment ends in a double quote. *)
Theorem C68_comments : forall (tz : timezone) (s comment : bytes) (a : allowed_signer),
  as_from_string tz s = Ok a ->
  (~ ends_in x22 comment -> as_from_string tz (s ++ x23 :: comment) = Ok a)
  /\ (ends_in x22 comment -> exists e, as_from_string tz (s ++ x23 :: comment) = Err (EInvalidAllowedSigner e)).
Proof.
  intros tz s c a H. split.
  - intros Hc. apply accepted_iff in H. apply accepted_iff. destruct H as (_ & pw & pt & ows & kt & kd & o & Hw & H). split.
    + intros X. apply ends_in_tail in X; [|discriminate]. destruct c as [|b c]; [destruct X as ([|y l] & E); [discriminate|destruct l; discriminate]|].
      apply Hc. apply (ends_in_tail x22 [x23] (b :: c)); [discriminate|exact X].
    + exists pw, pt, ows, kt, kd, o. split; [apply line_words_comment, Hw|exact H].
  - intros (l & ->). apply C68_final_quote_rejected. exists (s ++ x23 :: l). rewrite <- app_assoc. reflexivity.
Qed.
Print Assumptions C68_comments.
Example C68_case :
  as_from_string utc (s2b "a " ++ ex_key_text) = Ok (mkSigner [s2b "a"] false None None None ex_key)
  /\ as_from_string utc (s2b "a " ++ ex_key_text ++ s2b "#Jane") = Ok (mkSigner [s2b "a"] false None None None ex_key)
  /\ as_from_string utc (s2b "a " ++ ex_key_text ++ s2b " #" ++ [x22] ++ s2b "Jane" ++ [x22]) = Err (EInvalidAllowedSigner ASInvalidQuotes).
Proof. repeat split; vm_compute; reflexivity. Qed.

(** ** C69 *)
Theorem C69_lines_panic_only_on_local_time : forall (tz : timezone) (s : bytes),
  as_from_string tz s = Panic <-> panicking_line tz s.
Proof. exact panicking_iff. Qed.
Print Assumptions C69_lines_panic_only_on_local_time.
(** With a time zone that maps every local time to one instant, nothing panics. *)
Theorem C69_no_panic : forall (tz : timezone), (forall t, exists off, tz t = Single off) ->
  (forall s, as_from_string tz s <> Panic) /\ (forall s, signers_from_string tz s <> Panic).
Proof.
  intros tz Htz.
  assert (L : forall s, ~ panicking_line tz s).
  { intros s (ps & o & r & w & r' & _ & _ & (name & v & n & _ & _ & _ & (u & t & _ & _ & _ & Hu))).
    destruct (Htz t) as (off & E). exact (Hu off E). }
  split; intros s H.
  - apply panicking_iff in H. exact (L s H).
  - destruct (C66_file_is_its_lines tz s (lines s) (proj1 (lines_iff s _) eq_refl)) as (_ & _ & P). apply P in H.
    destruct H as (pre & l & post & es & t & _ & _ & _ & _ & X). exact (L t X).
Qed.
Print Assumptions C69_no_panic.
Theorem C69_local_time_panics_refuted : exists tz s, as_from_string tz s = Panic /\ signers_from_string tz s = Panic.
Proof. exists changing, (s2b "a valid-after=202403310215 " ++ ex_key_text). split; vm_compute; reflexivity. Qed.
Print Assumptions C69_local_time_panics_refuted.
Example C69_case : (forall t, exists off, utc t = Single off)
  /\ as_from_string utc (s2b "a valid-after=202403310215 " ++ ex_key_text)
     = Ok (mkSigner [s2b "a"] false None (Some 1711851300%Z) None ex_key).
Proof. split; [intros t; exists 0%Z; reflexivity|vm_compute; reflexivity]. Qed.

(** ** C80 *)
Theorem C80_every_rejection : forall (tz : timezone) (s : bytes) (e : error),
  as_from_string tz s = Err e <-> exists e', e = EInvalidAllowedSigner e' /\ rejected_line tz s e'.
Proof. exact rejected_iff. Qed.
Print Assumptions C80_every_rejection.
(** No line has two results. *)
Theorem C80_one_result : forall (tz : timezone) (s : bytes),
  (forall a a', accepted_line tz s a -> accepted_line tz s a' -> a = a')
  /\ (forall e e', rejected_line tz s e -> rejected_line tz s e' -> e = e')
  /\ (forall a e, accepted_line tz s a -> ~ rejected_line tz s e)
  /\ ((exists a, accepted_line tz s a) \/ (exists e, rejected_line tz s e) \/ panicking_line tz s).
Proof.
  intros tz s. split; [|split; [|split; [|apply line_total]]].
  - intros a a' H H'. apply accepted_ok in H, H'. congruence.
  - intros e e' H H'. apply rejected_err in H, H'. congruence.
  - intros a e H H'. apply accepted_ok in H. apply rejected_err in H'. congruence.
Qed.
Print Assumptions C80_one_result.
Example C80_case :
  as_from_string utc (s2b "a,,b " ++ ex_key_text) = Err (EInvalidAllowedSigner ASInvalidPrincipals)
  /\ as_from_string utc (s2b "a") = Err (EInvalidAllowedSigner ASMissingKey)
  /\ as_from_string utc (s2b "a ssh-ed25519") = Err (EInvalidAllowedSigner ASInvalidKey)
  /\ as_from_string utc (s2b "a " ++ ex_key_text ++ s2b " comment") = Err (EInvalidAllowedSigner ASUnexpectedEnd)
  /\ as_from_string utc (s2b "a valid-after=20240102Z valid-before=20240101Z " ++ ex_key_text) = Err (EInvalidAllowedSigner ASInvalidTimestamps)
  /\ as_from_string utc (s2b "a valid-after=2024 " ++ ex_key_text) = Err (EInvalidAllowedSigner (ASInvalidOption (s2b "valid-after")))
  /\ as_from_string utc (s2b "a namespaces=b namespaces=c " ++ ex_key_text) = Err (EInvalidAllowedSigner (ASDuplicateOptions (s2b "namespaces"))).
Proof. repeat split; vm_compute; reflexivity. Qed.

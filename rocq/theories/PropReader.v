(** Properties C01-C11: the reader and the writer. *)
From Verif Require Import Base BaseFacts Utf8 Utf8Facts SpecWire Reader ReaderFacts
  Writer WriterFacts WireFacts.

(** The bytes not yet read. *)
Definition unread (r : reader) : bytes := skipn (r_off r) (r_inner r).

(** ** C01 *)

(** Any call a program can make on a reader. *)
Inductive call :=
| CBytes | CRaw (n : nat) | CMpint | CString | CCstring | CU32 | CU64 | CSeek (o : nat).

Inductive value := VBytes (b : bytes) | VNum (n : N) | VUnit.

Definition as_value {A} (f : A -> value) (x : res A * reader) : res value * reader :=
  (match fst x with Ok a => Ok (f a) | Err e => Err e | Panic => Panic end, snd x).

Definition do_call (c : call) (r : reader) : res value * reader :=
  match c with
  | CBytes => as_value VBytes (read_bytes r)
  | CRaw n => as_value VBytes (read_raw_bytes n r)
  | CMpint => as_value VBytes (read_positive_mpint r)
  | CString => as_value VBytes (read_string r)
  | CCstring => as_value VBytes (read_cstring r)
  | CU32 => as_value VNum (read_u32 r)
  | CU64 => as_value VNum (read_u64 r)
  | CSeek o => as_value (fun _ => VUnit) (set_offset o r)
  end.

(** A program run: the calls are made one after the other, whatever their results;
    the trace lists call, state before, result, state after. *)
Fixpoint trace (cs : list call) (r : reader) : list (call * reader * res value * reader) :=
  match cs with
  | [] => []
  | c :: cs' => let (x, r') := do_call c r in (c, r, x, r') :: trace cs' r'
  end.

Definition safe_step (inner : bytes) (s : call * reader * res value * reader) : Prop :=
  let '(c, r, x, r') := s in
  x <> Panic /\ r_inner r' = inner
  /\ match c, x with
     | CSeek o, _ => x = Ok VUnit /\ r_off r' = o
     | _, Ok _ => r_off r < length inner /\ r_off r <= r_off r' <= length inner
     | _, _ => True
     end.

Lemma parses_bounds {A} (m : M A) P inner off a r' :
  parses m P -> m (mkReader inner off) = (Ok a, r') ->
  r_inner r' = inner /\ off <= r_off r' /\ (off <= length inner -> r_off r' <= length inner).
Proof.
  intros Hp H. apply Hp in H. destruct H as (bs & post & _ & Hs & ->). cbn [r_inner r_off].
  split; [reflexivity|]. split; [lia|]. intros Ho.
  assert (length (skipn off inner) = length (bs ++ post)) by congruence.
  rewrite skipn_length, app_length in H. lia.
Qed.

Lemma read_bytes_step r : let (x, r') := read_bytes r in
  x <> Panic /\ r_inner r' = r_inner r /\
  (forall b, x = Ok b -> r_off r < length (r_inner r) /\ r_off r <= r_off r' <= length (r_inner r)).
Proof.
  rewrite read_bytes_eq. destruct (length (r_inner r) <=? r_off r) eqn:E1;
    [repeat split; try discriminate|].
  destruct (length (rest r) <? 4) eqn:E2; [repeat split; try discriminate|].
  destruct (_ <? _)%N eqn:E3; [repeat split; try discriminate|].
  cbn [r_inner r_off]. split; [discriminate|]. split; [reflexivity|]. intros b _.
  unfold rest in *. rewrite skipn_length in *.
  apply Nat.ltb_ge in E2. apply N.ltb_ge in E3. apply Nat.leb_gt in E1. lia.
Qed.

Lemma do_call_safe c r : let (x, r') := do_call c r in safe_step (r_inner r) (c, r, x, r').
Proof.
  pose proof (read_bytes_step r) as Hb.
  destruct c; unfold do_call, as_value, safe_step.
  - destruct (read_bytes r) as [[b|e|] r']; cbn [fst snd]; destruct Hb as (H1 & H2 & H3);
      [|split; [congruence|auto]|congruence].
    split; [congruence|]. split; [exact H2|]. apply (H3 b eq_refl).
  - rewrite read_raw_bytes_eq. destruct (length (r_inner r) <=? r_off r) eqn:E1;
      [repeat split; discriminate|].
    destruct (length (rest r) <? n) eqn:E2; [repeat split; discriminate|].
    cbn [fst snd r_inner r_off]. unfold rest in E2. rewrite skipn_length in E2.
    apply Nat.leb_gt in E1. apply Nat.ltb_ge in E2. repeat split; try discriminate; lia.
  - rewrite read_positive_mpint_eq.
    destruct (read_bytes r) as [[b|e|] r']; destruct Hb as (H1 & H2 & H3); try congruence.
    + destruct (mpint_content b); cbn [fst snd].
      * split; [discriminate|]. split; [exact H2|]. apply (H3 b eq_refl).
      * split; [discriminate|]. split; [exact H2|exact I].
    + split; [discriminate|]. split; [exact H2|exact I].
  - rewrite read_string_eq.
    destruct (read_bytes r) as [[b|e|] r']; destruct Hb as (H1 & H2 & H3); try congruence.
    + destruct (utf8_valid b); cbn [fst snd].
      * split; [discriminate|]. split; [exact H2|]. apply (H3 b eq_refl).
      * split; [discriminate|]. split; [exact H2|exact I].
    + split; [discriminate|]. split; [exact H2|exact I].
  - rewrite read_cstring_eq. destruct (cstring_loop (rest r) [] 0) as [[s n]|] eqn:E.
    + apply cstring_loop_len in E. unfold rest in E. rewrite skipn_length in E.
      cbn [fst snd r_inner r_off]. repeat split; try discriminate; lia.
    + repeat split; discriminate.
  - unfold read_u32. rewrite read_uint_eq. destruct (length (r_inner r) <=? r_off r) eqn:E1;
      [repeat split; discriminate|].
    destruct (length (rest r) <? 4) eqn:E2; [repeat split; discriminate|].
    cbn [fst snd r_inner r_off]. unfold rest in E2. rewrite skipn_length in E2.
    apply Nat.leb_gt in E1. apply Nat.ltb_ge in E2. repeat split; try discriminate; lia.
  - unfold read_u64. rewrite read_uint_eq. destruct (length (r_inner r) <=? r_off r) eqn:E1;
      [repeat split; discriminate|].
    destruct (length (rest r) <? 8) eqn:E2; [repeat split; discriminate|].
    cbn [fst snd r_inner r_off]. unfold rest in E2. rewrite skipn_length in E2.
    apply Nat.leb_gt in E1. apply Nat.ltb_ge in E2. repeat split; try discriminate; lia.
  - cbn. repeat split; discriminate.
Qed.

(** Whatever calls are made in whatever order, from any buffer and offset: no call
    panics, the buffer stays the same, and every successful read ends inside it. *)
Theorem C01_reader_safe : forall (inner : bytes) (off : nat) (cs : list call),
  Forall (safe_step inner) (trace cs (mkReader inner off)).
Proof.
  intros inner off cs. remember (mkReader inner off) as r eqn:Hr.
  assert (Hi : r_inner r = inner) by (rewrite Hr; reflexivity). clear Hr off.
  revert r Hi. induction cs as [|c cs IH]; intros r Hi; [constructor|].
  cbn [trace]. pose proof (do_call_safe c r) as H. destruct (do_call c r) as [x r'].
  constructor; [rewrite <- Hi; exact H|]. apply IH. destruct H as (_ & H & _). congruence.
Qed.
Print Assumptions C01_reader_safe.

(** A run that mixes successful reads, failures and seeks out of the buffer. *)
Example C01_case :
  map (fun s => let '(_, _, x, r) := s in (x, r_off r))
    (trace [CBytes; CU32; CCstring; CSeek 99; CRaw 0; CSeek 5; CU64]
       (mkReader [x00; x00; x00; x01; x41; x42; x00; x07] 0))
  = [(Ok (VBytes [x41]), 5); (Err EInvalidFormat, 5); (Ok (VBytes [x42]), 7);
     (Ok VUnit, 99); (Err EUnexpectedEof, 99); (Ok VUnit, 5); (Err EInvalidFormat, 5)].
Proof. reflexivity. Qed.

(** ** C02 *)

Definition framed (u : bytes) : Prop := exists b post, field_ok b /\ u = field b ++ post.

Theorem C02_read_bytes_exact : forall (r : reader),
  (forall b r', read_bytes r = (Ok b, r') <->
     exists post, field_ok b /\ unread r = field b ++ post
                  /\ r' = mkReader (r_inner r) (r_off r + (4 + length b)))
  /\ (read_bytes r = (Err EUnexpectedEof, r) <-> unread r = [])
  /\ (read_bytes r = (Err EInvalidFormat, r) <-> unread r <> [] /\ ~ framed (unread r))
  /\ (forall e r', read_bytes r = (Err e, r') -> e = EUnexpectedEof \/ e = EInvalidFormat).
Proof.
  intros [inner off].
  assert (Hok : forall b r', read_bytes (mkReader inner off) = (Ok b, r') <->
     exists post, field_ok b /\ skipn off inner = field b ++ post
                  /\ r' = mkReader inner (off + (4 + length b))).
  { intros b r'. rewrite (parses_read_bytes inner off b r'). split.
    - intros (bs & post & (H1 & ->) & H2 & ->). exists post.
      rewrite field_ok_fits, field_enc, enc_bytes_length in *. auto.
    - intros (post & H1 & H2 & ->). exists (enc_bytes b), post.
      rewrite field_ok_fits, field_enc, enc_bytes_length in *. auto. }
  assert (Hun : forall l : bytes, l = [] <-> length l = 0)
    by (intros [|]; simpl; split; congruence).
  unfold unread. cbn [r_inner r_off]. split; [exact Hok|].
  assert (Hrest : length inner <=? off = true <-> skipn off inner = []).
  { rewrite Hun, skipn_length, Nat.leb_le. lia. }
  split; [|split].
  - rewrite <- Hrest. rewrite read_bytes_eq. cbn [r_inner r_off].
    destruct (length inner <=? off); [intuition|].
    split; [|discriminate].
    destruct (length (rest _) <? 4); [discriminate|]. destruct (_ <? _)%N; discriminate.
  - split.
    + intros H. split.
      * intros Hu. apply Hrest in Hu. rewrite read_bytes_eq in H. cbn [r_inner r_off] in H.
        rewrite Hu in H. discriminate.
      * intros (b & post & Hf & Hu).
        assert (E : read_bytes (mkReader inner off) = (Ok b, mkReader inner (off + (4 + length b))))
          by (apply Hok; eauto). congruence.
    + intros [Hn Hf]. destruct (read_bytes (mkReader inner off)) as [x r'] eqn:E.
      destruct x as [b|e|].
      * exfalso. destruct (proj1 (Hok b r') eq_refl) as (post & H1 & H2 & _).
        apply Hf. exists b, post. auto.
      * rewrite read_bytes_eq in E. cbn [r_inner r_off] in E.
        destruct (length inner <=? off) eqn:E1; [tauto|].
        destruct (length (rest _) <? 4); [congruence|]. destruct (_ <? _)%N; congruence.
      * exfalso. apply (nopanic_read_bytes (mkReader inner off)). rewrite E. reflexivity.
  - intros e r'. rewrite read_bytes_eq. cbn [r_inner r_off].
    destruct (length inner <=? off); [intros [= <- <-]; auto|].
    destruct (length (rest _) <? 4); [intros [= <- <-]; auto|].
    destruct (_ <? _)%N; [intros [= <- <-]; auto|discriminate].
Qed.
Print Assumptions C02_read_bytes_exact.

Example C02_case : read_bytes (mkReader [xff; x00; x00; x00; x02; x61; x62; x63] 1)
  = (Ok [x61; x62], mkReader [xff; x00; x00; x00; x02; x61; x62; x63] 7).
Proof. reflexivity. Qed.
(** A declared length of 2^32-1 does not wrap. *)
Example C02_case_huge : read_bytes (reader_new [xff; xff; xff; xff; x61])
  = (Err EInvalidFormat, reader_new [xff; xff; xff; xff; x61]).
Proof. vm_compute. reflexivity. Qed.

(** ** C03 *)

Theorem C03_failed_reads_do_not_consume : forall (r r' : reader) (e : error),
  (read_bytes r = (Err e, r') -> r' = r)
  /\ (forall n, read_raw_bytes n r = (Err e, r') -> r' = r)
  /\ (read_u32 r = (Err e, r') -> r' = r)
  /\ (read_u64 r = (Err e, r') -> r' = r)
  /\ (read_cstring r = (Err e, r') -> r' = r)
  /\ (forall m, (m = read_string \/ m = read_positive_mpint) -> m r = (Err e, r') ->
        (~ framed (unread r) /\ r' = r)
        \/ exists b post, field_ok b /\ unread r = field b ++ post
                          /\ r' = mkReader (r_inner r) (r_off r + (4 + length b))).
Proof.
  intros r r' e.
  assert (Hb : forall e r', read_bytes r = (Err e, r') -> r' = r).
  { intros e0 r0. rewrite read_bytes_eq. destruct (_ <=? _); [congruence|].
    destruct (_ <? _); [congruence|]. destruct (_ <? _)%N; congruence. }
  assert (Hu : forall k, read_uint k r = (Err e, r') -> r' = r).
  { intros k. rewrite read_uint_eq. destruct (_ <=? _); [congruence|].
    destruct (_ <? _); [congruence|]. discriminate. }
  assert (Hfr : forall e0 r0, read_bytes r = (Err e0, r0) -> ~ framed (unread r)).
  { intros e0 r0 H (b & post & H1 & H2). destruct (C02_read_bytes_exact r) as [Hok _].
    assert (E : read_bytes r = (Ok b, mkReader (r_inner r) (r_off r + (4 + length b))))
      by (apply Hok; eauto). congruence. }
  split; [apply Hb|]. split; [|split; [apply Hu|split; [apply Hu|split]]].
  - intros n. rewrite read_raw_bytes_eq. destruct (_ <=? _); [congruence|].
    destruct (_ <? _); [congruence|]. discriminate.
  - rewrite read_cstring_eq. destruct (cstring_loop _ _ _) as [[s n]|]; congruence.
  - assert (Hc : forall b r0, read_bytes r = (Ok b, r0) -> r' = r0 ->
        exists b post, field_ok b /\ unread r = field b ++ post
                          /\ r' = mkReader (r_inner r) (r_off r + (4 + length b))).
    { intros b r0 H ->. apply (proj1 (C02_read_bytes_exact r)) in H.
      destruct H as (post & H). exists b, post. exact H. }
    intros m [-> | ->].
    + rewrite read_string_eq. destruct (read_bytes r) as [[b|e0|] r0] eqn:E.
      * destruct (utf8_valid b); [discriminate|]. intros [= _ <-]. right. eapply Hc; reflexivity.
      * intros [= _ <-]. left. split; [eapply Hfr; reflexivity|eapply Hb; reflexivity].
      * discriminate.
    + rewrite read_positive_mpint_eq. destruct (read_bytes r) as [[b|e0|] r0] eqn:E.
      * destruct (mpint_content b); [discriminate|]. intros [= _ <-]. right. eapply Hc; reflexivity.
      * intros [= _ <-]. left. split; [eapply Hfr; reflexivity|eapply Hb; reflexivity].
      * discriminate.
Qed.
Print Assumptions C03_failed_reads_do_not_consume.

(** Both outcomes of a failing [read_string]: unframed and rejected content. *)
Example C03_case : snd (read_string (reader_new [x00; x00; x00; x09; x61])) =
    reader_new [x00; x00; x00; x09; x61]
  /\ read_string (reader_new [x00; x00; x00; x01; xff; x07])
     = (Err EUtf8, mkReader [x00; x00; x00; x01; xff; x07] 5).
Proof. split; reflexivity. Qed.

(** ** C04 *)

Theorem C04_fixed_width : forall (inner pre post : bytes) (off : nat) (n : N),
  (** writing *)
  write_u32 n inner = inner ++ be32 n /\ write_u64 n inner = inner ++ be64 n
  (** reading *)
  /\ (forall n r', read_u32 (mkReader inner off) = (Ok n, r') <->
        (n <= u32_max)%N /\ r' = mkReader inner (off + 4)
        /\ exists rest, skipn off inner = be32 n ++ rest)
  /\ (forall n r', read_u64 (mkReader inner off) = (Ok n, r') <->
        (n <= u64_max)%N /\ r' = mkReader inner (off + 8)
        /\ exists rest, skipn off inner = be64 n ++ rest)
  /\ (forall k m, (k = 4 /\ m = read_u32) \/ (k = 8 /\ m = read_u64) ->
        (length inner <= off -> m (mkReader inner off) = (Err EUnexpectedEof, mkReader inner off))
        /\ (off < length inner < off + k ->
            m (mkReader inner off) = (Err EInvalidFormat, mkReader inner off)))
  (** round trip *)
  /\ ((n <= u32_max)%N ->
      read_u32 (mkReader (write_u32 n pre ++ post) (length pre))
      = (Ok n, mkReader (write_u32 n pre ++ post) (length pre + 4)))
  /\ ((n <= u64_max)%N ->
      read_u64 (mkReader (write_u64 n pre ++ post) (length pre))
      = (Ok n, mkReader (write_u64 n pre ++ post) (length pre + 8))).
Proof.
  intros inner pre post off n.
  assert (R32 : forall inner off n r', read_u32 (mkReader inner off) = (Ok n, r') <->
        (n <= u32_max)%N /\ r' = mkReader inner (off + 4)
        /\ exists rest, skipn off inner = be32 n ++ rest).
  { intros i o x r'. rewrite (parses_read_u32 i o x r'). unfold u32_max. split.
    - intros (bs & ps & (H1 & ->) & H2 & ->). rewrite to_be_length, be32_to_be.
      repeat split; eauto. change (2 ^ 32)%N with 4294967296%N in H1. lia.
    - intros (H1 & -> & ps & H2). exists (be32 x), ps. rewrite be32_to_be in *.
      rewrite to_be_length. repeat split; auto. change (2 ^ 32)%N with 4294967296%N. lia. }
  assert (R64 : forall inner off n r', read_u64 (mkReader inner off) = (Ok n, r') <->
        (n <= u64_max)%N /\ r' = mkReader inner (off + 8)
        /\ exists rest, skipn off inner = be64 n ++ rest).
  { intros i o x r'. rewrite (parses_read_u64 i o x r'). unfold u64_max. split.
    - intros (bs & ps & (H1 & ->) & H2 & ->). rewrite to_be_length, be64_to_be.
      repeat split; eauto. change (2 ^ 64)%N with 18446744073709551616%N in H1. lia.
    - intros (H1 & -> & ps & H2). exists (be64 x), ps. rewrite be64_to_be in *.
      rewrite to_be_length. repeat split; auto. change (2 ^ 64)%N with 18446744073709551616%N. lia. }
  split; [unfold write_u32; rewrite be32_to_be; reflexivity|].
  split; [unfold write_u64; rewrite be64_to_be; reflexivity|].
  split; [apply R32|]. split; [apply R64|]. split.
  - assert (G : forall k,
        (length inner <= off -> read_uint k (mkReader inner off) = (Err EUnexpectedEof, mkReader inner off))
        /\ (off < length inner < off + k ->
            read_uint k (mkReader inner off) = (Err EInvalidFormat, mkReader inner off))).
    { intros k. rewrite read_uint_eq. unfold rest. cbn [r_inner r_off]. rewrite skipn_length. split.
      - intros H. apply Nat.leb_le in H. rewrite H. reflexivity.
      - intros H. replace (length inner <=? off) with false by lia.
        replace (length inner - off <? k) with true by lia. reflexivity. }
    intros k m [[-> ->]|[-> ->]]; apply G.
  - split; intros H.
    + apply R32. split; [exact H|]. split; [reflexivity|]. exists post.
      unfold write_u32. rewrite <- app_assoc, skipn_app_exact by reflexivity.
      rewrite be32_to_be. reflexivity.
    + apply R64. split; [exact H|]. split; [reflexivity|]. exists post.
      unfold write_u64. rewrite <- app_assoc, skipn_app_exact by reflexivity.
      rewrite be64_to_be. reflexivity.
Qed.
Print Assumptions C04_fixed_width.

Example C04_case : write_u64 (2 ^ 64 - 2) [] = [xff; xff; xff; xff; xff; xff; xff; xfe]
  /\ fst (read_u64 (reader_new [xff; xff; xff; xff; xff; xff; xff; xfe])) = Ok (2 ^ 64 - 2)%N
  /\ fst (read_u32 (mkReader [x07; x01; x02; x03; x04] 1)) = Ok 16909060%N.
Proof. repeat split; vm_compute; reflexivity. Qed.

(** ** C05 *)

Theorem C05_raw_bytes_exact : forall (r : reader) (n : nat),
  (unread r <> [] -> n <= length (unread r) ->
     exists b post, length b = n /\ unread r = b ++ post
       /\ read_raw_bytes n r = (Ok b, mkReader (r_inner r) (r_off r + n)))
  /\ (unread r = [] \/ length (unread r) < n -> read_raw_bytes n r = (Err EUnexpectedEof, r)).
Proof.
  intros [inner off] n. rewrite read_raw_bytes_eq. unfold unread, rest. cbn [r_inner r_off].
  assert (Hun : skipn off inner = [] <-> length inner <= off).
  { split; intros H.
    - assert (length (skipn off inner) = 0) by (rewrite H; reflexivity).
      rewrite skipn_length in H0. lia.
    - apply length_zero_iff_nil. rewrite skipn_length. lia. }
  split.
  - intros H1 H2. replace (length inner <=? off) with false
      by (symmetry; apply Nat.leb_gt; destruct (Nat.lt_ge_cases off (length inner)); intuition).
    replace (length (skipn off inner) <? n) with false by lia.
    exists (firstn n (skipn off inner)), (skipn n (skipn off inner)).
    rewrite firstn_length, firstn_skipn. split; [lia|]. split; reflexivity.
  - intros H. destruct (length inner <=? off) eqn:E; [reflexivity|].
    destruct H as [H|H]; [apply Hun in H; lia|].
    replace (length (skipn off inner) <? n) with true by lia. reflexivity.
Qed.
Print Assumptions C05_raw_bytes_exact.

Example C05_case :
  read_raw_bytes 2 (mkReader [x01; x02; x03] 1) = (Ok [x02; x03], mkReader [x01; x02; x03] 3)
  /\ read_raw_bytes 0 (mkReader [x01] 0) = (Ok [], mkReader [x01] 0)
  /\ read_raw_bytes 0 (mkReader [x01] 1) = (Err EUnexpectedEof, mkReader [x01] 1).
Proof. repeat split. Qed.

(** ** C06 *)

Theorem C06_mpint_read_canonical :
  (forall (inner : bytes) (off : nat) (m : bytes) (r' : reader),
     read_positive_mpint (mkReader inner off) = (Ok m, r') <->
     exists z content post,
       (0 <= z)%Z /\ mpint_content_of z content /\ field_ok content
       /\ skipn off inner = field content ++ post
       /\ shortest m /\ Z.of_N (magnitude m) = z
       /\ r' = mkReader inner (off + (4 + length content)))
  /\ (forall z, (0 <= z)%Z -> exists! content, mpint_content_of z content)
  /\ (forall z, (0 <= z)%Z -> exists! m, shortest m /\ Z.of_N (magnitude m) = z).
Proof.
  split; [|split].
  - intros inner off m r'. rewrite (parses_read_positive_mpint inner off m r'). split.
    + intros (bs & post & ((H1 & H2) & ->) & H3 & ->).
      exists (Z.of_N (from_be m)), (mpint_bytes m), post.
      rewrite field_ok_fits, field_enc, enc_bytes_length, shortest_iff, magnitude_from_be.
      repeat split; auto; try lia.
      * apply mpint_bytes_twos, H2.
      * intros l' Hl. apply mpint_minimal; [exact H2|exact Hl].
    + intros (z & content & post & Hz & Hc & Hf & Hs & Hm & Hv & ->).
      apply mpint_content_of_iff in Hc; [|exact Hz]. destruct Hc as (m' & Hn & Hv' & ->).
      apply shortest_iff in Hm. rewrite magnitude_from_be in Hv.
      assert (m = m') as <- by (apply no_lead_zero_inj; auto; lia).
      rewrite field_enc in Hs. apply field_ok_fits in Hf.
      exists (enc_bytes (mpint_bytes m)), post. rewrite enc_bytes_length. auto.
  - intros z Hz. destruct (shortest_exists z Hz) as (m & Hm & Hv).
    exists (mpint_bytes m). split.
    + apply mpint_content_of_iff; eauto.
    + intros c Hc. apply mpint_content_of_iff in Hc; [|exact Hz].
      destruct Hc as (m' & Hn & Hv' & ->). f_equal. apply no_lead_zero_inj; auto; lia.
  - intros z Hz. destruct (shortest_exists z Hz) as (m & Hm & Hv).
    exists m. split; [rewrite shortest_iff, magnitude_from_be; auto|].
    intros m' [Hn Hv']. apply shortest_iff in Hn. rewrite magnitude_from_be in Hv'.
    apply no_lead_zero_inj; auto; lia.
Qed.
Print Assumptions C06_mpint_read_canonical.

Example C06_case :
  fst (read_positive_mpint (reader_new [x00; x00; x00; x02; x00; x80])) = Ok [x80]
  /\ fst (read_positive_mpint (reader_new [x00; x00; x00; x00])) = Ok []
  /\ fst (read_positive_mpint (reader_new [x00; x00; x00; x02; x00; x7f])) = Err EInvalidFormat
  /\ fst (read_positive_mpint (reader_new [x00; x00; x00; x01; x80])) = Err EInvalidFormat
  /\ fst (read_positive_mpint (reader_new [x00; x00; x00; x01; x00])) = Err EInvalidFormat.
Proof. repeat split. Qed.

(** ** C07 *)

Theorem C07_mpint_write_canonical : forall (val : bytes),
  (size val < u32_max)%N ->
  exists content m,
    (forall w, write_mpint val w = w ++ field content)
    /\ field_ok content
    /\ mpint_content_of (Z.of_N (magnitude val)) content
    /\ shortest m /\ magnitude m = magnitude val
    /\ (exists zeros, val = repeat x00 zeros ++ m)
    /\ (forall pre post,
          read_positive_mpint (mkReader (pre ++ field content ++ post) (length pre))
          = (Ok m, mkReader (pre ++ field content ++ post) (length pre + length (field content))))
    /\ (forall w, write_mpint m w = w ++ field content).
Proof.
  intros val Hs. assert (Hf : fits_mpint val).
  { unfold fits_mpint, size, u32_max in *. change (2 ^ 32)%N with 4294967296%N. lia. }
  assert (Hf' : fits_mpint (strip0 val)).
  { unfold fits_mpint in *. pose proof (strip0_length val). lia. }
  exists (mpint_bytes (strip0 val)), (strip0 val).
  pose proof (strip0_no_lead val) as Hn. rewrite shortest_iff, !magnitude_from_be, strip0_value.
  split; [intros w; rewrite field_enc; apply write_mpint_enc, Hf|].
  split; [apply field_ok_fits, fits_mpint_bytes, Hf|].
  split; [apply mpint_content_of_iff; [lia|]; exists (strip0 val); rewrite strip0_value; auto|].
  split; [exact Hn|]. split; [reflexivity|]. split; [|split].
  - exists (leading_zeros val). clear. unfold strip0.
    induction val as [|b v IH]; [reflexivity|]. simpl leading_zeros.
    destruct (b2n b =? 0)%N eqn:E; [|reflexivity].
    apply N.eqb_eq, b2n_zero in E. subst b. simpl. f_equal. exact IH.
  - intros pre post. apply parses_read_positive_mpint.
    exists (enc_bytes (mpint_bytes (strip0 val))), post.
    rewrite field_enc, skipn_app_exact by reflexivity.
    repeat split; auto. apply fits_mpint_bytes, Hf.
  - intros w. rewrite field_enc, write_mpint_enc by exact Hf'.
    unfold enc_mpint. rewrite strip0_idem. reflexivity.
Qed.
Print Assumptions C07_mpint_write_canonical.

Example C07_case : write_mpint [x00; x00; x80; x00] [] = [x00; x00; x00; x03; x00; x80; x00]
  /\ write_mpint [x00; x00] [] = [x00; x00; x00; x00].
Proof. split; reflexivity. Qed.

(** ** C08 *)

Theorem C08_strings_utf8 :
  (forall (inner : bytes) (off : nat) (s : bytes) (r' : reader),
     read_string (mkReader inner off) = (Ok s, r') <->
     exists post, field_ok s /\ utf8_text s /\ skipn off inner = field s ++ post
                  /\ r' = mkReader inner (off + (4 + length s)))
  /\ (forall (inner : bytes) (off : nat) (b post : bytes),
        skipn off inner = field b ++ post -> field_ok b -> ~ utf8_text b ->
        fst (read_string (mkReader inner off)) = Err EUtf8)
  /\ (forall (s w post : bytes), utf8_text s -> field_ok s ->
        read_string (mkReader (write_string s w ++ post) (length w))
        = (Ok s, mkReader (write_string s w ++ post) (length (write_string s w)))).
Proof.
  assert (R : forall (inner : bytes) (off : nat) (s : bytes) (r' : reader),
     read_string (mkReader inner off) = (Ok s, r') <->
     exists post, field_ok s /\ utf8_text s /\ skipn off inner = field s ++ post
                  /\ r' = mkReader inner (off + (4 + length s))).
  { intros inner off s r'. rewrite (parses_read_string inner off s r'). split.
    - intros (bs & post & ((H1 & H2) & ->) & H3 & ->). exists post.
      rewrite field_ok_fits, field_enc, <- utf8_valid_iff, enc_bytes_length in *. auto.
    - intros (post & H1 & H2 & H3 & ->). exists (enc_bytes s), post.
      rewrite field_ok_fits, field_enc, <- utf8_valid_iff, enc_bytes_length in *. auto. }
  split; [exact R|split].
  - intros inner off b post Hs Hf Hu. rewrite read_string_eq.
    assert (E : read_bytes (mkReader inner off) = (Ok b, mkReader inner (off + (4 + length b))))
      by (apply (proj1 (C02_read_bytes_exact _)); eauto).
    rewrite E. destruct (utf8_valid b) eqn:Ev; [|reflexivity].
    exfalso. apply Hu, utf8_valid_iff, Ev.
  - intros s w post Hu Hf. pose proof (proj1 (field_ok_fits s) Hf) as Hf'.
    rewrite write_string_enc by exact Hf'. apply R. exists post.
    rewrite <- field_enc, <- app_assoc, skipn_app_exact by reflexivity.
    rewrite app_length, field_length. auto.
Qed.
Print Assumptions C08_strings_utf8.

(** A string with 1-, 2-, 3- and 4-byte characters round trips; an encoded surrogate
    and an overlong form are not text. *)
Example C08_case :
  let s := [x41; xc3; xa9; xe2; x82; xac; xf0; x9f; x98; x80] in
  utf8_text s /\ field_ok s
  /\ fst (read_string (reader_new (write_string s []))) = Ok s
  /\ fst (read_string (reader_new (write_bytes [xed; xa0; x80] []))) = Err EUtf8
  /\ fst (read_string (reader_new (write_bytes [xc0; x80] []))) = Err EUtf8.
Proof.
  split; [apply utf8_valid_iff; reflexivity|]. split; [unfold field_ok; cbn; discriminate|].
  repeat split; vm_compute; reflexivity.
Qed.

(** ** C09 *)

Definition ascii_nonzero (s : bytes) : Prop := Forall (fun b => (0 < Byte.to_N b < 128)%N) s.

Definition latin1 (a : bytes) : bytes := concat (map push_latin1 a).

Lemma cstring_loop_some a : forall post, ~ In x00 a ->
  cstring_loop (a ++ x00 :: post) [] 0 = Some (latin1 a, S (length a)).
Proof.
  induction a as [|b a IH]; intros post H; [reflexivity|]. cbn [app cstring_loop].
  assert (Hb : (b2n b =? 0)%N = false).
  { apply N.eqb_neq. intros E. apply b2n_zero in E. apply H. left. auto. }
  rewrite Hb, cstring_loop_eq, IH by (intros Hi; apply H; right; exact Hi). reflexivity.
Qed.

Lemma cstring_loop_none a : ~ In x00 a -> cstring_loop a [] 0 = None.
Proof.
  induction a as [|b a IH]; intros H; [reflexivity|]. cbn [cstring_loop].
  assert (Hb : (b2n b =? 0)%N = false).
  { apply N.eqb_neq. intros E. apply b2n_zero in E. apply H. left. auto. }
  rewrite Hb, cstring_loop_eq, IH by (intros Hi; apply H; right; exact Hi). reflexivity.
Qed.

Lemma split_nul (l : bytes) : ~ In x00 l \/ exists a post, l = a ++ x00 :: post /\ ~ In x00 a.
Proof.
  induction l as [|b l IH]; [left; intros []|].
  destruct (byte_eqb b x00) eqn:E.
  - apply byte_eqb_eq in E. subst. right. exists [], l. split; [reflexivity|intros []].
  - apply byte_eqb_neq in E. destruct IH as [IH|(a & post & -> & Ha)].
    + left. intros [H|H]; [congruence|auto].
    + right. exists (b :: a), post. split; [reflexivity|]. intros [H|H]; [congruence|auto].
Qed.

Lemma push_latin1_cases b : b <> x00 ->
  ((b2n b < 128)%N /\ push_latin1 b = [b])
  \/ ((128 <= b2n b)%N /\ exists c d, push_latin1 b = [c; d] /\ c <> x00 /\ d <> x00).
Proof.
  intros Hb. pose proof (b2n_lt b). unfold push_latin1, utf8_encode.
  destruct (b2n b <? 128)%N eqn:E.
  - left. rewrite n2b_b2n. split; [lia|reflexivity].
  - right. replace (b2n b <? 2048)%N with true by lia. split; [lia|].
    exists (n2b (192 + b2n b / 64)), (n2b (128 + b2n b mod 64)). split; [reflexivity|].
    split; intros E2; apply (f_equal b2n) in E2; rewrite b2n_n2b in E2;
      change (b2n x00) with 0%N in E2; lia.
Qed.

Lemma latin1_no_nul a : ~ In x00 a -> ~ In x00 (latin1 a).
Proof.
  unfold latin1. induction a as [|b a IH]; intros H; [intros []|].
  cbn [map concat]. rewrite in_app_iff. intros [Hi|Hi].
  - destruct (push_latin1_cases b) as [[_ E]|(_ & c & d & E & Hc & Hd)].
    + intros E; apply H; left; auto.
    + rewrite E in Hi. destruct Hi as [Hi|[]]. apply H. left. exact Hi.
    + rewrite E in Hi. destruct Hi as [Hi|[Hi|[]]]; congruence.
  - apply IH; [intros Hi'; apply H; right; exact Hi'|exact Hi].
Qed.

Lemma latin1_length a : ~ In x00 a -> length a <= length (latin1 a)
  /\ (length (latin1 a) = length a -> ascii_nonzero a).
Proof.
  unfold latin1. induction a as [|b a IH]; intros H; [split; [cbn; lia|constructor]|].
  cbn [map concat length]. rewrite app_length.
  destruct IH as [IH1 IH2]; [intros Hi; apply H; right; exact Hi|].
  assert (Hb0 : b <> x00) by (intros ->; apply H; left; reflexivity).
  destruct (push_latin1_cases b Hb0) as [[Hb E]|(Hb & c & d & E & _)]; rewrite E; cbn [length].
  - split; [lia|]. intros Hl. constructor; [|apply IH2; lia].
    change Byte.to_N with b2n. split; [|exact Hb].
    destruct (N.eq_dec (b2n b) 0) as [E0|]; [apply b2n_zero in E0; congruence|lia].
  - split; [lia|]. intros Hl. lia.
Qed.

Lemma latin1_ascii a : ascii_nonzero a -> latin1 a = a.
Proof.
  unfold latin1. induction 1 as [|b a Hb _ IH]; [reflexivity|]. cbn [map concat]. rewrite IH.
  change Byte.to_N with b2n in Hb.
  destruct (push_latin1_cases b) as [[_ E]|(Hb2 & _)]; [|rewrite E; reflexivity|lia].
  intros ->. change (b2n x00) with 0%N in Hb. lia.
Qed.

Lemma ascii_no_nul a : ascii_nonzero a -> ~ In x00 a.
Proof.
  intros H Hi. unfold ascii_nonzero in H. rewrite Forall_forall in H. specialize (H _ Hi).
  change (Byte.to_N x00) with 0%N in H. lia.
Qed.

(** Round trip and consumption for ASCII text without NUL, and never the same string
    for any other string. *)
Theorem C09_cstring_ascii_only : forall (s pre post : bytes),
  let r := mkReader (write_cstring s pre ++ post) (length pre) in
  (ascii_nonzero s ->
     read_cstring r = (Ok s, mkReader (write_cstring s pre ++ post) (length (write_cstring s pre))))
  /\ (fst (read_cstring r) = Ok s -> ascii_nonzero s)
  /\ (forall inner off, ~ In x00 (skipn off inner) ->
        read_cstring (mkReader inner off) = (Err EUnexpectedEof, mkReader inner off)).
Proof.
  intros s pre post. cbv zeta.
  assert (Hr : rest (mkReader (write_cstring s pre ++ post) (length pre)) = s ++ x00 :: post).
  { unfold rest, write_cstring. cbn [r_inner r_off]. rewrite <- !app_assoc, skipn_app_exact by reflexivity.
    reflexivity. }
  split; [|split].
  - intros Ha. rewrite read_cstring_eq, Hr, cstring_loop_some by (apply ascii_no_nul, Ha).
    rewrite latin1_ascii by exact Ha. cbn [r_inner r_off]. do 2 f_equal.
    unfold write_cstring. rewrite !app_length. simpl. lia.
  - rewrite read_cstring_eq, Hr. destruct (split_nul s) as [Hs|(a & p & -> & Ha)].
    + rewrite cstring_loop_some by exact Hs. cbn [fst]. intros H.
      assert (E : latin1 s = s) by congruence.
      apply latin1_length; [exact Hs|rewrite E; reflexivity].
    + rewrite <- app_assoc. cbn [app]. rewrite cstring_loop_some by exact Ha. cbn [fst]. intros H.
      assert (E : latin1 a = a ++ x00 :: p) by congruence.
      exfalso. apply (latin1_no_nul a Ha). rewrite E, in_app_iff. right. left. reflexivity.
  - intros inner off H. rewrite read_cstring_eq. unfold rest. cbn [r_inner r_off].
    rewrite cstring_loop_none by exact H. reflexivity.
Qed.
Print Assumptions C09_cstring_ascii_only.

Example C09_case : ascii_nonzero (s2b "none")
  /\ fst (read_cstring (reader_new (write_cstring (s2b "none") []))) = Ok (s2b "none")
  (** "é" comes back as "Ã©" *)
  /\ fst (read_cstring (reader_new (write_cstring [xc3; xa9] [])))
     = Ok [xc3; x83; xc2; xa9].
Proof.
  split; [repeat constructor|]. split; reflexivity.
Qed.

(** ** C10, C11 *)

(** A typed message: what is written, the types to read, what reading returns. *)
Inductive fld :=
| FU32 (n : N) | FU64 (n : N) | FBytes (b : bytes) | FString (s : bytes)
| FMpint (m : bytes) | FRaw (b : bytes).
Inductive ty := TU32 | TU64 | TBytes | TString | TMpint | TRaw (n : nat).

Definition type_of (f : fld) : ty :=
  match f with
  | FU32 _ => TU32 | FU64 _ => TU64 | FBytes _ => TBytes | FString _ => TString
  | FMpint _ => TMpint | FRaw b => TRaw (length b)
  end.

(** What a caller can write: values in range, fields below 4 GiB, strings are text. *)
Definition writable (f : fld) : Prop :=
  match f with
  | FU32 n => (n <= u32_max)%N
  | FU64 n => (n <= u64_max)%N
  | FBytes b => field_ok b
  | FString s => field_ok s /\ utf8_text s
  | FMpint m => (size m < u32_max)%N
  | FRaw b => b <> []
  end.

Definition write_fld (w : writer) (f : fld) : writer :=
  match f with
  | FU32 n => write_u32 n w
  | FU64 n => write_u64 n w
  | FBytes b => write_bytes b w
  | FString s => write_string s w
  | FMpint m => write_mpint m w
  | FRaw b => write_raw_bytes b w
  end.
Definition write_msg (fs : list fld) (w : writer) : writer := fold_left write_fld fs w.

Definition read_fld (t : ty) : M fld :=
  match t with
  | TU32 => do! n <- read_u32; ret (FU32 n)
  | TU64 => do! n <- read_u64; ret (FU64 n)
  | TBytes => do! b <- read_bytes; ret (FBytes b)
  | TString => do! s <- read_string; ret (FString s)
  | TMpint => do! m <- read_positive_mpint; ret (FMpint m)
  | TRaw n => do! b <- read_raw_bytes n; ret (FRaw b)
  end.
Fixpoint read_msg (ts : list ty) : M (list fld) :=
  match ts with
  | [] => ret []
  | t :: ts' => do! f <- read_fld t; do! fs <- read_msg ts'; ret (f :: fs)
  end.

(** Same value; big integers come back as shortest magnitudes. *)
Definition same_value (written got : fld) : Prop :=
  match written, got with
  | FMpint m, FMpint m' => shortest m' /\ magnitude m' = magnitude m
  | _, _ => written = got
  end.

Definition enc_fld (f : fld) : bytes :=
  match f with
  | FU32 n => to_be 4 n | FU64 n => to_be 8 n
  | FBytes b | FString b => enc_bytes b
  | FMpint m => enc_mpint m | FRaw b => b
  end.
Definition got_fld (f : fld) : fld := match f with FMpint m => FMpint (strip0 m) | _ => f end.

Lemma write_fld_enc f w : writable f -> write_fld w f = w ++ enc_fld f.
Proof.
  destruct f; simpl; intros H; try reflexivity.
  - apply write_bytes_enc, field_ok_fits, H.
  - apply write_string_enc, field_ok_fits, H.
  - apply write_mpint_enc. unfold fits_mpint, size, u32_max in *.
    change (2 ^ 32)%N with 4294967296%N. lia.
Qed.

Lemma write_msg_enc fs : forall w, Forall writable fs ->
  write_msg fs w = w ++ concat (map enc_fld fs).
Proof.
  unfold write_msg. induction fs as [|f fs IH]; intros w H; cbn [fold_left map concat].
  - rewrite app_nil_r. reflexivity.
  - inversion H; subst. rewrite write_fld_enc, IH by assumption. rewrite app_assoc. reflexivity.
Qed.

(** Relation of one field. *)
Definition fld_rel (t : ty) (f : fld) (bs : bytes) : Prop :=
  match t, f with
  | TU32, FU32 n => (n < 2 ^ 32)%N /\ bs = to_be 4 n
  | TU64, FU64 n => (n < 2 ^ 64)%N /\ bs = to_be 8 n
  | TBytes, FBytes b => fits b /\ bs = enc_bytes b
  | TString, FString s => (fits s /\ utf8_valid s = true) /\ bs = enc_bytes s
  | TMpint, FMpint m => (fits (mpint_bytes m) /\ no_lead_zero m) /\ bs = enc_bytes (mpint_bytes m)
  | TRaw n, FRaw b => length b = n /\ bs = b
  | _, _ => False
  end.
Definition ty_ok (t : ty) : Prop := match t with TRaw n => 0 < n | _ => True end.

Lemma parses_map {A B} (m : M A) (f : A -> B) P :
  parses m P -> parses (do! a <- m; ret (f a)) (fun b bs => exists a, b = f a /\ P a bs).
Proof.
  intros Hm. eapply parses_ext; [|apply parses_bind; [exact Hm|intros a; apply parses_ret]].
  intros b bs. simpl. split.
  - intros (a & b1 & b2 & -> & H & -> & ->). rewrite app_nil_r. eauto.
  - intros (a & -> & H). exists a, bs, []. rewrite app_nil_r. auto.
Qed.

Lemma parses_read_fld t : ty_ok t -> parses (read_fld t) (fld_rel t).
Proof.
  intros Ht. destruct t; cbn [read_fld].
  - eapply parses_ext; [|apply parses_map, parses_read_u32].
    intros f bs; split; [intros (a & -> & H); exact H|destruct f; simpl; try tauto; eauto].
  - eapply parses_ext; [|apply parses_map, parses_read_u64].
    intros f bs; split; [intros (a & -> & H); exact H|destruct f; simpl; try tauto; eauto].
  - eapply parses_ext; [|apply parses_map, parses_read_bytes].
    intros f bs; split; [intros (a & -> & H); exact H|destruct f; simpl; try tauto; eauto].
  - eapply parses_ext; [|apply parses_map, parses_read_string].
    intros f bs; split; [intros (a & -> & H); exact H|destruct f; simpl; try tauto; eauto].
  - eapply parses_ext; [|apply parses_map, parses_read_positive_mpint].
    intros f bs; split; [intros (a & -> & H); exact H|destruct f; simpl; try tauto; eauto].
  - eapply parses_ext; [|apply parses_map, parses_read_raw, Ht].
    intros f bs; split; [intros (a & -> & H); exact H|destruct f; simpl; try tauto; eauto].
Qed.

Fixpoint msg_rel (ts : list ty) (fs : list fld) (bs : bytes) : Prop :=
  match ts, fs with
  | [], [] => bs = []
  | t :: ts', f :: fs' => exists b1 b2, bs = b1 ++ b2 /\ fld_rel t f b1 /\ msg_rel ts' fs' b2
  | _, _ => False
  end.

Lemma parses_read_msg ts : Forall ty_ok ts -> parses (read_msg ts) (msg_rel ts).
Proof.
  induction 1 as [|t ts Ht _ IH].
  - eapply parses_ext; [|apply (parses_ret [])]. intros fs bs. simpl.
    destruct fs; intuition congruence.
  - cbn [read_msg]. eapply parses_ext;
      [|apply parses_bind; [apply parses_read_fld, Ht|intros f; apply parses_map, IH]].
    intros fs bs. simpl. split.
    + intros (f & b1 & b2 & -> & H1 & fs' & -> & H2). eauto.
    + destruct fs as [|f fs]; [intros []|]. intros (b1 & b2 & -> & H1 & H2).
      exists f, b1, b2. split; [reflexivity|]. eauto.
Qed.

Lemma types_ok fs : Forall writable fs -> Forall ty_ok (map type_of fs).
Proof.
  induction 1 as [|f fs Hf _ IH]; constructor; [|exact IH].
  destruct f as [n|n|b|s|m|b]; simpl in *; auto.
  destruct b; simpl; [congruence|lia].
Qed.

Lemma msg_rel_written fs : Forall writable fs ->
  msg_rel (map type_of fs) (map got_fld fs) (concat (map enc_fld fs)).
Proof.
  induction 1 as [|f fs Hf _ IH]; [reflexivity|].
  cbn [map msg_rel concat]. exists (enc_fld f), (concat (map enc_fld fs)).
  split; [reflexivity|]. split; [|exact IH].
  destruct f as [n|n|b|s|m|b]; simpl in *;
    rewrite ?field_ok_fits, ?utf8_valid_iff in *; unfold u32_max, u64_max in *; auto.
  - split; [lia|reflexivity].
  - split; [lia|reflexivity].
  - split; [|reflexivity]. split; [apply fits_mpint_bytes|apply strip0_no_lead].
    unfold fits_mpint, size in *. lia.
Qed.

Lemma same_value_got fs : Forall2 same_value fs (map got_fld fs).
Proof.
  induction fs as [|f fs IH]; constructor; [|exact IH].
  destruct f; simpl; auto. rewrite shortest_iff, !magnitude_from_be, strip0_value.
  split; [apply strip0_no_lead|reflexivity].
Qed.

Theorem C10_message_round_trip : forall (fs : list fld) (pre post : bytes),
  Forall writable fs ->
  exists vs, Forall2 same_value fs vs
    /\ read_msg (map type_of fs) (mkReader (write_msg fs pre ++ post) (length pre))
       = (Ok vs, mkReader (write_msg fs pre ++ post) (length (write_msg fs pre))).
Proof.
  intros fs pre post H. exists (map got_fld fs). split; [apply same_value_got|].
  apply (parses_read_msg _ (types_ok fs H)). rewrite write_msg_enc by exact H.
  exists (concat (map enc_fld fs)), post. split; [apply msg_rel_written, H|].
  rewrite <- app_assoc, skipn_app_exact by reflexivity. split; [reflexivity|].
  rewrite app_length. reflexivity.
Qed.
Print Assumptions C10_message_round_trip.

Definition sample_msg : list fld :=
  [FU32 7; FString (s2b "ssh-rsa"); FMpint [x00; x01; x00; x01]; FMpint [xc3; x22];
   FRaw [x01; x02]; FU64 (2 ^ 63); FBytes []].
Lemma sample_writable : Forall writable sample_msg.
Proof.
  unfold sample_msg. repeat constructor; try (cbn; discriminate); try reflexivity.
  apply utf8_valid_iff. reflexivity.
Qed.
Example C10_case : Forall writable sample_msg
  /\ fst (read_msg (map type_of sample_msg) (reader_new (write_msg sample_msg [])))
     = Ok [FU32 7; FString (s2b "ssh-rsa"); FMpint [x01; x00; x01]; FMpint [xc3; x22];
           FRaw [x01; x02]; FU64 (2 ^ 63); FBytes []].
Proof. split; [apply sample_writable|vm_compute; reflexivity]. Qed.

Lemma nopanic_read_msg ts : nopanic (read_msg ts).
Proof.
  induction ts as [|t ts IH]; [apply nopanic_ret|]. cbn [read_msg].
  apply nopanic_bind.
  - destruct t; cbn [read_fld]; (apply nopanic_bind; [|intros a; apply nopanic_ret]).
    + apply nopanic_read_u32.
    + apply nopanic_read_u64.
    + apply nopanic_read_bytes.
    + apply nopanic_read_string.
    + apply nopanic_read_mpint.
    + apply nopanic_read_raw.
  - intros f. apply nopanic_bind; [exact IH|intros fs; apply nopanic_ret].
Qed.

Theorem C11_truncation_rejected : forall (fs : list fld) (p q : bytes),
  Forall writable fs -> write_msg fs writer_new = p ++ q -> q <> [] ->
  exists e r, read_msg (map type_of fs) (reader_new p) = (Err e, r).
Proof.
  intros fs p q H Hw Hq. destruct (read_msg (map type_of fs) (reader_new p)) as [[vs|e|] r] eqn:E.
  - exfalso. pose proof (parses_read_msg _ (types_ok fs H)) as Hp.
    pose proof (parses_bounds _ _ _ _ _ _ Hp E) as (_ & _ & Hb). specialize (Hb ltac:(lia)).
    pose proof (parses_extend _ _ _ _ _ _ q Hp (Nat.le_0_l _) E) as Hx. cbn [r_inner r_off] in Hx.
    destruct (C10_message_round_trip fs [] [] H) as (vs' & _ & Hr).
    rewrite app_nil_r in Hr. change (write_msg fs []) with (write_msg fs writer_new) in Hr.
    rewrite Hw in Hr. cbn [length] in Hr. rewrite Hr in Hx.
    assert (Hl : length (p ++ q) = r_off r) by congruence.
    rewrite app_length in Hl. destruct q; [congruence|simpl in Hl; lia].
  - eauto.
  - exfalso. apply (nopanic_read_msg (map type_of fs) (reader_new p)). rewrite E. reflexivity.
Qed.
Print Assumptions C11_truncation_rejected.

Example C11_case :
  let b := write_msg sample_msg writer_new in
  firstn 11 b <> b
  /\ fst (read_msg (map type_of sample_msg) (reader_new (firstn 11 b))) = Err EInvalidFormat
  /\ fst (read_msg (map type_of sample_msg) (reader_new (firstn (length b - 4) b))) = Err EUnexpectedEof.
Proof. split; [discriminate|]. split; vm_compute; reflexivity. Qed.

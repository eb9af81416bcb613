(** Lemmas on CBOR heads and authenticator data. *)
From Coq Require Import Lia.
From Verif Require Import Base BaseFacts SpecWire WireFacts KeyType PubKeyType AllowedSigner Fido SpecSigner FileFacts SpecFido.

Lemma take_iff n l a r : take n l = Some (a, r) <-> length a = n /\ l = a ++ r.
Proof.
  unfold take. destruct (Nat.leb_spec n (length l)) as [H|H]; split.
  - intros [= <- <-]. rewrite firstn_length, firstn_skipn. split; [lia|reflexivity].
  - intros [<- ->]. rewrite firstn_app, firstn_all, Nat.sub_diag, skipn_app, skipn_all, Nat.sub_diag, app_nil_r. reflexivity.
  - discriminate.
  - intros [<- ->]. rewrite app_length in H. lia.
Qed.
Lemma take_none n l : take n l = None <-> length l < n.
Proof. unfold take. destruct (Nat.leb_spec n (length l)); split; intros; try discriminate; try lia; reflexivity. Qed.

(** ** Heads *)
Lemma info_widths info k : In (info, k) [(24%N, 1); (25%N, 2); (26%N, 4); (27%N, 8)] ->
  (info < 32)%N /\ forall l, cbor_argument info l = match take k l with Some (b, r) => Some (from_be b, r) | None => None end.
Proof.
  intros H. cbn in H. destruct H as [H|[H|[H|[H|[]]]]]; injection H as <- <-; (split; [lia|reflexivity]).
Qed.
Lemma argument_iff info l n r : (info < 32)%N -> cbor_argument info l = Some (n, r) <->
  (n = info /\ (info < 24)%N /\ r = l)
  \/ exists b, In (info, length b) [(24%N, 1); (25%N, 2); (26%N, 4); (27%N, 8)] /\ magnitude b = n /\ l = b ++ r.
Proof.
  intros Hi. split.
  - unfold cbor_argument. destruct (N.ltb_spec info 24) as [H|H]; [intros [= <- <-]; left; auto|]. intros E. right.
    assert (G : forall k, match take k l with Some (b, r0) => Some (from_be b, r0) | None => None end = Some (n, r) ->
      exists b, length b = k /\ magnitude b = n /\ l = b ++ r).
    { intros k Ek. destruct (take k l) as [[b r0]|] eqn:T; [|discriminate]. injection Ek as <- <-. apply take_iff in T. destruct T as [<- ->].
      exists b. rewrite magnitude_from_be. auto. }
    destruct (N.eqb_spec info 24) as [->|N1]; [destruct (G _ E) as (b & L & M & ->); exists b; rewrite L; cbn; auto 10|].
    destruct (N.eqb_spec info 25) as [->|N2]; [destruct (G _ E) as (b & L & M & ->); exists b; rewrite L; cbn; auto 10|].
    destruct (N.eqb_spec info 26) as [->|N3]; [destruct (G _ E) as (b & L & M & ->); exists b; rewrite L; cbn; auto 10|].
    destruct (N.eqb_spec info 27) as [->|N4]; [destruct (G _ E) as (b & L & M & ->); exists b; rewrite L; cbn; auto 10|].
    discriminate E.
  - intros [(-> & H & ->)|(b & Hb & <- & ->)].
    + unfold cbor_argument. replace (info <? 24)%N with true by lia. reflexivity.
    + destruct (info_widths _ _ Hb) as [_ E]. rewrite E.
      rewrite (proj2 (take_iff (length b) (b ++ r) b r)) by auto. rewrite magnitude_from_be. reflexivity.
Qed.
(** Head and argument together. *)
Definition head_arg (l : bytes) : option (N * N * bytes) :=
  match cbor_head l with
  | Some (major, info, r) => match cbor_argument info r with Some (n, r') => Some (major, n, r') | None => None end
  | None => None
  end.
Lemma head_arg_iff l major n r : (major < 8)%N -> head_arg l = Some (major, n, r) <-> exists h, head_of major n h /\ l = h ++ r.
Proof.
  intros Hm. unfold head_arg, cbor_head. split.
  - destruct l as [|b l]; [discriminate|]. pose proof (b2n_lt b) as Hb.
    assert (Hi : (b2n b mod 32 < 32)%N) by (apply N.mod_lt; lia).
    destruct (cbor_argument (b2n b mod 32) l) as [[n' r']|] eqn:E; [|discriminate]. intros [= <- -> ->].
    apply (argument_iff _ _ _ _ Hi) in E. destruct E as [(-> & H & ->)|(a & Ha & <- & ->)].
    + exists [b]. split; [|reflexivity]. apply H_short; [exact H|]. change (Byte.to_N b) with (b2n b). pose proof (N.div_mod (b2n b) 32). lia.
    + exists (b :: a). split; [|reflexivity]. eapply H_long; [exact Ha| |reflexivity]. change (Byte.to_N b) with (b2n b). pose proof (N.div_mod (b2n b) 32). lia.
  - intros (h & H & ->).
    assert (D : forall b i, Byte.to_N b = (32 * major + i)%N -> (i < 32)%N -> (b2n b / 32 = major /\ b2n b mod 32 = i)%N).
    { intros b i E Hi. unfold b2n. rewrite E. split; [symmetry; apply (N.div_unique _ 32 major i); lia|symmetry; apply (N.mod_unique _ 32 major i); lia]. }
    destruct H as [b Ha Hb|b info rest Hi Hb Hn]; cbn [app].
    + destruct (D b n Hb ltac:(lia)) as [-> ->]. rewrite (proj2 (argument_iff n r n r ltac:(lia))) by auto. reflexivity.
    + destruct (info_widths _ _ Hi) as [Hi' _]. destruct (D b info Hb Hi') as [-> ->].
      rewrite (proj2 (argument_iff info (rest ++ r) n r Hi')) by (right; exists rest; auto). reflexivity.
Qed.

(** ** Integers *)
(** What [read_integer] computes. *)
Definition plain_integer (l : bytes) : res (Z * bytes) :=
  match head_arg l with
  | Some (0%N, n, r) => Ok (Z.of_N n, r)
  | Some (1%N, n, r) => if (n <? 2 ^ 63)%N then Ok (-1 - Z.of_N n, r)%Z else Err EParsingError
  | _ => Err EParsingError
  end.
Lemma first_byte k p l b r : take (S k) (p :: l) = Some (b, r) -> (from_be b < (b2n p + 1) * 256 ^ N.of_nat k)%N /\ (b2n p * 256 ^ N.of_nat k <= from_be b)%N.
Proof.
  intros H. apply take_iff in H. destruct H as [Hl E]. destruct b as [|x b]; [discriminate|]. cbn [app] in E. injection E as <- ->.
  cbn in Hl. injection Hl as <-. rewrite from_be_cons. pose proof (from_be_bound b). nia.
Qed.
Ltac closed_n a := lazymatch a with context [from_be _] => fail | context [b2n _] => fail | _ => idtac end.
Ltac lits := repeat match goal with
  | |- context [(?a <=? ?b)%N] => closed_n a; let v := eval vm_compute in (a <=? b)%N in change (a <=? b)%N with v
  | |- context [(?a =? ?b)%N] => closed_n a; let v := eval vm_compute in (a =? b)%N in change (a =? b)%N with v
  | |- context [(?a <? ?b)%N] => closed_n a; let v := eval vm_compute in (a <? b)%N in change (a <? b)%N with v
  end; cbn [andb orb].
Lemma wide_integer b l m info k : In (info, k) [(24%N, 1); (25%N, 2); (26%N, 4); (27%N, 8)] -> m = 0%N \/ m = 1%N -> b2n b = (32 * m + info)%N ->
  read_integer (b :: l) = plain_integer (b :: l).
Proof.
  intros Hi Hm Hb.
  assert (D : (b2n b / 32 = m /\ b2n b mod 32 = info)%N).
  { destruct (info_widths _ _ Hi) as [Hi' _]. rewrite Hb. split; [symmetry; apply (N.div_unique _ 32 m info); lia|symmetry; apply (N.mod_unique _ 32 m info); lia]. }
  destruct D as [D1 D2].
  assert (P : forall (n a : cbor_type) b' r, take k l = Some (b', r) ->
    match l with [] => None | p :: _ => Some (if (b2n p <? 128)%N then a else n) end
    = Some (if (from_be b' <? 128 * 256 ^ N.of_nat (k - 1))%N then a else n)).
  { intros n a b' r H. destruct l as [|p l0]; [apply take_iff in H; destruct H as [H E]; destruct b'; [cbn in *; subst k; intuition congruence|discriminate]|].
    destruct k as [|k']; [cbn in Hi; intuition congruence|]. destruct (first_byte _ _ _ _ _ H) as [B1 B2]. replace (S k' - 1) with k' by lia.
    f_equal. pose proof (N.pow_nonzero 256 (N.of_nat k')). destruct (N.ltb_spec (b2n p) 128), (N.ltb_spec (from_be b') (128 * 256 ^ N.of_nat k')); try reflexivity; nia. }
  unfold plain_integer, head_arg, cbor_head. rewrite D1, D2. destruct (info_widths _ _ Hi) as [_ EA]. rewrite EA.
  unfold read_integer, cbor_datatype, cbor_unsigned, cbor_signed, cbor_head. rewrite D1, D2, EA, Hb.
  destruct (take k l) as [[b' r]|] eqn:T.
  - pose proof (P TI16 TI8 _ _ eq_refl) as P1. pose proof (P TI32 TI16 _ _ eq_refl) as P2. pose proof (P TI64 TI32 _ _ eq_refl) as P3. pose proof (P TOther TI64 _ _ eq_refl) as P4.
    apply take_iff in T. destruct T as [T _]. pose proof (from_be_bound b') as F. rewrite T in F.
    cbn in Hi. destruct Hi as [Hi|[Hi|[Hi|[Hi|[]]]]]; injection Hi as <- <-; destruct Hm as [-> | ->]; lits; cbv beta iota zeta;
      rewrite ?P1, ?P2, ?P3, ?P4; clear P P1 P2 P3 P4.
    all: change (8 - 1) with 7; change (4 - 1) with 3; change (2 - 1) with 1; change (1 - 1) with 0; cbn [N.of_nat Pos.of_succ_nat Pos.succ N.pow Pos.pow N.mul] in *; repeat match goal with |- context [(from_be ?y <? ?x)%N] => destruct (N.ltb_spec (from_be y) x) end; try reflexivity; exfalso; lia.
  - cbn in Hi. destruct Hi as [Hi|[Hi|[Hi|[Hi|[]]]]]; injection Hi as <- <-; destruct Hm as [-> | ->]; lits; cbv beta iota zeta; try reflexivity.
    all: destruct l as [|p l0]; [reflexivity|]; destruct (b2n p <? 128)%N; reflexivity.
Qed.
Lemma read_integer_plain l : read_integer l = plain_integer l.
Proof.
  destruct l as [|b l]; [reflexivity|].
  destruct b; try reflexivity.
  1: apply (wide_integer _ _ 0 24 1); cbn; auto 10.
  1: apply (wide_integer _ _ 0 25 2); cbn; auto 10.
  1: apply (wide_integer _ _ 0 26 4); cbn; auto 10.
  1: apply (wide_integer _ _ 0 27 8); cbn; auto 10.
  1: apply (wide_integer _ _ 1 24 1); cbn; auto 10.
  1: apply (wide_integer _ _ 1 25 2); cbn; auto 10.
  1: apply (wide_integer _ _ 1 26 4); cbn; auto 10.
  1: apply (wide_integer _ _ 1 27 8); cbn; auto 10.
  all: unfold plain_integer, head_arg; cbn [cbor_head]; match goal with |- context [cbor_argument ?i ?x] => destruct (cbor_argument i x) as [[]|] end; reflexivity.
Qed.
Lemma integer_iff l z r : read_integer l = Ok (z, r) <-> exists bs, int_of z bs /\ l = bs ++ r.
Proof.
  rewrite read_integer_plain. unfold plain_integer. split.
  - destruct (head_arg l) as [[[m n] r']|] eqn:E; [|discriminate]. destruct m as [|p].
    + intros [= <- <-]. apply head_arg_iff in E; [|lia]. destruct E as (h & H & ->). exists h. split; [|reflexivity]. apply I_pos; [lia|]. rewrite N2Z.id. exact H.
    + destruct p; try discriminate. destruct (N.ltb_spec n (2 ^ 63)) as [B|B]; [|discriminate]. intros X. assert (Y : (-1 - Z.of_N n)%Z = z /\ r' = r) by (split; congruence). clear X. destruct Y as [<- <-].
      apply head_arg_iff in E; [|lia]. destruct E as (h & H & ->). exists h. split; [|reflexivity].
      apply I_neg; [change (2 ^ 63)%N with 9223372036854775808%N in B; lia|]. replace (-1 - (-1 - Z.of_N n))%Z with (Z.of_N n) by lia. rewrite N2Z.id. exact H.
  - intros (bs & H & ->). destruct H as [bs Hz H|bs Hz H].
    + rewrite (proj2 (head_arg_iff (bs ++ r) 0 (Z.to_N z) r ltac:(lia))) by eauto. rewrite Z2N.id by lia. reflexivity.
    + rewrite (proj2 (head_arg_iff (bs ++ r) 1 (Z.to_N (-1 - z)) r ltac:(lia))) by eauto.
      replace (Z.to_N (-1 - z) <? 2 ^ 63)%N with true by (symmetry; apply N.ltb_lt; change (2 ^ 63)%N with 9223372036854775808%N; lia).
      rewrite Z2N.id by lia. f_equal. f_equal. lia.
Qed.
Lemma integer_cases l : (exists z r, read_integer l = Ok (z, r)) \/ read_integer l = Err EParsingError.
Proof.
  rewrite read_integer_plain. unfold plain_integer. destruct (head_arg l) as [[[[|[]] n] r]|]; try (left; eauto; fail); try (right; reflexivity).
  destruct (n <? 2 ^ 63)%N; [left; eauto|right; reflexivity].
Qed.
Lemma bytes_iff l s r : cbor_bytes l = Some (s, r) <-> exists bs, string_of s bs /\ l = bs ++ r.
Proof.
  unfold string_of. split.
  - intros H. assert (E : exists n r', head_arg l = Some (2%N, n, r') /\ take (N.to_nat n) r' = Some (s, r)).
    { revert H. unfold cbor_bytes, head_arg. destruct (cbor_head l) as [[[m i] r0]|]; [|discriminate].
      destruct m as [|[[]|[]|]]; try discriminate. destruct (cbor_argument i r0) as [[n r']|]; [|discriminate]. eauto. }
    destruct E as (n & r' & E & T). apply head_arg_iff in E; [|lia]. destruct E as (h & Hh & ->). apply take_iff in T. destruct T as [L ->].
    exists (h ++ s). split; [|rewrite <- app_assoc; reflexivity]. exists h. split; [|reflexivity]. unfold size. rewrite L, N2Nat.id. exact Hh.
  - intros (bs & (h & Hh & ->) & ->). rewrite <- app_assoc.
    assert (E : head_arg (h ++ s ++ r) = Some (2%N, size s, s ++ r)) by (apply head_arg_iff; [lia|eauto]).
    unfold head_arg in E. unfold cbor_bytes. destruct (cbor_head (h ++ s ++ r)) as [[[m i] r0]|]; [|discriminate].
    destruct (cbor_argument i r0) as [[n r']|]; [|discriminate]. injection E as -> -> ->. unfold size. rewrite Nat2N.id. apply take_iff. auto.
Qed.
Lemma undefined_iff l r : cbor_undefined l = Some r <-> l = xf7 :: r.
Proof.
  unfold cbor_undefined. destruct l as [|b l]; [split; discriminate|]. destruct (byte_eqb b xf7) eqn:E.
  - apply byte_eqb_eq in E. subst b. split; [intros [= <-]; reflexivity|intros [= <-]; reflexivity].
  - split; [discriminate|]. intros [= -> ->]. discriminate.
Qed.

(** ** Entries *)
Definition apply_item (i : item) (k : cose_key) : cose_key :=
  match i with
  | Kty v => mkCose v (ck_algorithm k) (ck_key k) (ck_parameters k)
  | Alg v => mkCose (ck_type k) v (ck_key k) (ck_parameters k)
  | Crv v => mkCose (ck_type k) (ck_algorithm k) (ck_key k) (zm_insert (-1)%Z (display_z v) (ck_parameters k))
  | Coord _ s => mkCose (ck_type k) (ck_algorithm k) s (ck_parameters k)
  | Unknown _ => k
  end.
Lemma map_err_ok {A} (r : res A) e a : map_err r e = Ok a <-> r = Ok a.
Proof. destruct r; cbn; split; congruence. Qed.
Lemma ok_or_ok {A} (o : option A) e a : ok_or o e = Ok a <-> o = Some a.
Proof. destruct o; cbn; split; congruence. Qed.
Lemma entry_iff k l k' r : cose_entry k l = Ok (k', r) <-> exists i bs, item_of i bs /\ l = bs ++ r /\ k' = apply_item i k.
Proof.
  split.
  - unfold cose_entry. destruct (read_integer l) as [[key l1]|e|] eqn:E; try discriminate. cbn [bind].
    apply integer_iff in E. destruct E as (a & Ha & ->).
    destruct (Z.eqb_spec key (-1)) as [->|N1]; [|destruct (Z.eqb_spec key 1) as [->|N2]; [|destruct (Z.eqb_spec key 3) as [->|N3]]].
    + destruct (map_err (read_integer l1) _) as [[v l2]|e|] eqn:E2; try discriminate. cbn [bind]. intros [= <- <-].
      apply map_err_ok, integer_iff in E2. destruct E2 as (b & Hb & ->). exists (Crv v), (a ++ b). rewrite <- app_assoc. split; [constructor; assumption|auto].
    + destruct (map_err (read_integer l1) _) as [[v l2]|e|] eqn:E2; try discriminate. cbn [bind]. intros [= <- <-].
      apply map_err_ok, integer_iff in E2. destruct E2 as (b & Hb & ->). exists (Kty v), (a ++ b). rewrite <- app_assoc. split; [constructor; assumption|auto].
    + destruct (map_err (read_integer l1) _) as [[v l2]|e|] eqn:E2; try discriminate. cbn [bind]. intros [= <- <-].
      apply map_err_ok, integer_iff in E2. destruct E2 as (b & Hb & ->). exists (Alg v), (a ++ b). rewrite <- app_assoc. split; [constructor; assumption|auto].
    + destruct ((key =? -2)%Z || (key =? -3)%Z) eqn:Ek.
      * destruct (ok_or (cbor_bytes l1) _) as [[v l2]|e|] eqn:E2; try discriminate. cbn [bind]. intros [= <- <-].
        apply ok_or_ok, bytes_iff in E2. destruct E2 as (b & Hb & ->). exists (Coord key v), (a ++ b). rewrite <- app_assoc. split; [constructor; try assumption; lia|auto].
      * destruct (ok_or (cbor_undefined l1) _) as [l2|e|] eqn:E2; try discriminate. cbn [bind]. intros [= <- <-].
        apply ok_or_ok, undefined_iff in E2. subst l1. exists (Unknown key), (a ++ [xf7]). rewrite <- app_assoc. split; [|auto].
        constructor; [|exact Ha]. cbn. lia.
  - intros (i & bs & Hi & -> & ->). unfold cose_entry. destruct Hi as [v a b Ha Hb|v a b Ha Hb|v a b Ha Hb|k0 s a b Hk Ha Hb|k0 a Hk Ha]; rewrite <- !app_assoc.
    1-3: rewrite (proj2 (integer_iff (a ++ b ++ r) _ (b ++ r))) by eauto; cbn [bind Z.eqb Pos.eqb]; rewrite (proj2 (integer_iff (b ++ r) _ r)) by eauto; reflexivity.
    + rewrite (proj2 (integer_iff (a ++ b ++ r) _ (b ++ r))) by eauto. cbn [bind].
      replace (k0 =? -1)%Z with false by lia. replace (k0 =? 1)%Z with false by lia. replace (k0 =? 3)%Z with false by lia.
      replace ((k0 =? -2)%Z || (k0 =? -3)%Z) with true by lia.
      rewrite (proj2 (bytes_iff (b ++ r) s r)) by eauto. reflexivity.
    + rewrite (proj2 (integer_iff (a ++ [xf7] ++ r) _ ([xf7] ++ r))) by eauto. cbn [bind]. cbn in Hk.
      replace (k0 =? -1)%Z with false by lia. replace (k0 =? 1)%Z with false by lia. replace (k0 =? 3)%Z with false by lia.
      replace ((k0 =? -2)%Z || (k0 =? -3)%Z) with false by lia.
      rewrite (proj2 (undefined_iff ([xf7] ++ r) r)) by reflexivity. reflexivity.
Qed.
Lemma entries_iff n : forall k l k', cose_entries n k l = Ok k' <->
  exists is bs r, length is = n /\ items_of is bs /\ l = bs ++ r /\ k' = fold_left (fun k i => apply_item i k) is k.
Proof.
  induction n as [|n IH]; intros k l k'; cbn [cose_entries].
  - split; [intros [= <-]; exists [], [], l; repeat split; constructor|]. intros (is & bs & r & Hn & _ & _ & ->). destruct is; [reflexivity|discriminate].
  - split.
    + destruct (cose_entry k l) as [[k1 l1]|e|] eqn:E; try discriminate. cbn [bind]. intros H. apply entry_iff in E. destruct E as (i & a & Hi & -> & ->).
      apply IH in H. destruct H as (is & b & r & Hn & His & -> & ->). exists (i :: is), (a ++ b), r.
      split; [cbn; congruence|]. split; [constructor; assumption|]. split; [rewrite <- app_assoc; reflexivity|reflexivity].
    + intros (is & bs & r & Hn & His & -> & ->). destruct is as [|i is]; [discriminate|]. inversion His as [|i0 is0 a b Hi Hb]; subst. rewrite <- app_assoc.
      rewrite (proj2 (entry_iff k (a ++ b ++ r) (apply_item i k) (b ++ r))) by eauto. cbn [bind]. apply IH. exists is, b, r. split; [cbn in Hn; congruence|auto].
Qed.
Lemma entries_nopanic n : forall k l, cose_entries n k l <> Panic.
Proof.
  assert (I : forall l, read_integer l <> Panic) by (intros l; destruct (integer_cases l) as [(z & r & E)|E]; rewrite E; discriminate).
  assert (P : forall k l, cose_entry k l <> Panic).
  { intros k l. unfold cose_entry. specialize (I l) as I1. destruct (read_integer l) as [[key l1]| |]; try discriminate; [|congruence]. cbn [bind].
    specialize (I l1) as I2.
    destruct (key =? -1)%Z; [destruct (read_integer l1) as [[]| |]; cbn; congruence|].
    destruct (key =? 1)%Z; [destruct (read_integer l1) as [[]| |]; cbn; congruence|].
    destruct (key =? 3)%Z; [destruct (read_integer l1) as [[]| |]; cbn; congruence|].
    destruct (_ || _); [destruct (cbor_bytes l1) as [[]|]; cbn; congruence|]. destruct (cbor_undefined l1); cbn; congruence. }
  induction n as [|n IH]; intros k l; cbn [cose_entries]; [discriminate|]. specialize (P k l). destruct (cose_entry k l) as [[k1 l1]| |]; cbn [bind]; [apply IH|discriminate|congruence].
Qed.

(** ** The key *)
Lemma last_or {A} (f : item -> option A) i is d : or_else (last_some f (i :: is)) d = or_else (last_some f is) (or_else (f i) d).
Proof. cbn [last_some]. destruct (last_some f is); reflexivity. Qed.
Lemma fold_fields is : forall k, let k' := fold_left (fun k i => apply_item i k) is k in
  ck_type k' = or_else (last_some kty_of is) (ck_type k) /\ ck_algorithm k' = or_else (last_some alg_of is) (ck_algorithm k)
  /\ ck_key k' = or_else (last_some coord_of is) (ck_key k)
  /\ (ck_parameters k = [] \/ (exists t, ck_parameters k = [((-1)%Z, t)]) ->
      ck_parameters k' = match last_some crv_of is with Some v => [((-1)%Z, display_z v)] | None => ck_parameters k end).
Proof.
  induction is as [|i is IH]; intros k; cbn [fold_left].
  - repeat split. 
  - destruct (IH (apply_item i k)) as (H1 & H2 & H3 & H4). cbv zeta in *. rewrite H1, H2, H3, !last_or.
    split; [f_equal; destruct i; reflexivity|]. split; [f_equal; destruct i; reflexivity|]. split; [f_equal; destruct i; reflexivity|].
    intros Hk. rewrite H4.
    + cbn [last_some]. destruct (last_some crv_of is); [reflexivity|]. destruct i; try reflexivity. cbn [crv_of apply_item ck_parameters].
      destruct Hk as [E|(t & E)]; rewrite E; reflexivity.
    + destruct i; try exact Hk. cbn [apply_item ck_parameters]. right. destruct Hk as [E|(t & E)]; rewrite E; cbn; eauto.
Qed.
Definition dec_step (a : Z) (b : byte) : Z := (10 * a + (Z.of_N (Byte.to_N b) - 48))%Z.
Lemma dec_shift l : forall z, (fold_left dec_step l z = z * 10 ^ Z.of_nat (length l) + dec l)%Z.
Proof.
  unfold dec. change (fun a b => _) with dec_step. induction l as [|x l IH]; intros z; [cbn; lia|]. cbn [fold_left length].
  rewrite IH, (IH (dec_step 0 x)). unfold dec_step at 1 3.
  replace (Z.of_nat (S (length l))) with (Z.succ (Z.of_nat (length l))) by lia. rewrite Z.pow_succ_r by lia. lia.
Qed.
Lemma dec_cons d l : dec (d :: l) = ((Z.of_N (Byte.to_N d) - 48) * 10 ^ Z.of_nat (length l) + dec l)%Z.
Proof. unfold dec at 1. cbn [fold_left]. change (fun a b => _) with dec_step. rewrite dec_shift. f_equal. Qed.
Lemma dec_length a b : Forall digit a -> Forall digit b -> (forall x r, b <> x30 :: x :: r) -> a <> [] -> dec a = dec b -> length b <= length a.
Proof.
  intros Ha Hb Nb Na E. destruct b as [|d [|d' b]]; [cbn; lia|destruct a; [congruence|cbn; lia]|].
  pose proof (dec_bounds a Ha) as Ba. apply Forall_cons_iff in Hb. destruct Hb as [Hd Hb]. pose proof (dec_bounds _ Hb) as Bb. rewrite dec_cons in E.
  assert (D : (1 <= Z.of_N (Byte.to_N d) - 48)%Z).
  { unfold digit in Hd. assert (Byte.to_N d <> 48%N); [|lia]. intros X. apply (Nb d' b). f_equal. apply b2n_inj. exact X. }
  assert (L : (10 ^ Z.of_nat (length (d' :: b)) < 10 ^ Z.of_nat (length a))%Z) by nia.
  apply Z.pow_lt_mono_r_iff in L; [|lia|lia]. cbn [length] in *. lia.
Qed.
Lemma dec_inj a : forall b, Forall digit a -> Forall digit b -> length a = length b -> dec a = dec b -> a = b.
Proof.
  induction a as [|x a IH]; intros [|y b] Ha Hb L E; try discriminate; [reflexivity|]. cbn in L. injection L as L.
  apply Forall_cons_iff in Ha, Hb. destruct Ha as [Hx Ha], Hb as [Hy Hb]. rewrite !dec_cons, L in E.
  pose proof (dec_bounds a Ha) as Ba. pose proof (dec_bounds b Hb) as Bb. rewrite L in Ba. unfold digit in Hx, Hy.
  set (P := (10 ^ Z.of_nat (length b))%Z) in *. clearbody P.
  assert (X : Z.of_N (Byte.to_N x) = Z.of_N (Byte.to_N y)) by nia. apply N2Z.inj, b2n_inj in X. subst y.
  f_equal. apply IH; auto. lia.
Qed.
Lemma decimal_fun x t t' : decimal_text x t -> decimal_text x t' -> t = t'.
Proof.
  intros (a & Da & Na & Za & Ha) (b & Db & Nb & Zb & Hb).
  assert (E : dec a = dec b) by lia.
  pose proof (dec_length a b Da Db Zb Na E). pose proof (dec_length b a Db Da Za Nb (eq_sym E)).
  assert (a = b) by (apply dec_inj; auto; lia). subst b.
  destruct Ha as [(A1 & -> & _)|(A1 & -> & _)], Hb as [(B1 & -> & _)|(B1 & -> & _)]; try lia; reflexivity.
Qed.
Lemma key_iff is k : key_of is k <-> k = fold_left (fun k i => apply_item i k) is (mkCose 0 0 [] []).
Proof.
  destruct (fold_fields is (mkCose 0 0 [] [])) as (H1 & H2 & H3 & H4). cbv zeta in *. cbn [ck_type ck_algorithm ck_key ck_parameters] in *.
  specialize (H4 (or_introl eq_refl)). set (k' := fold_left _ is _) in *. unfold key_of. split.
  - intros (E1 & E2 & E3 & E4). destruct k as [t a c p], k' as [t' a' c' p']. cbn [ck_type ck_algorithm ck_key ck_parameters] in *. subst.
    f_equal. destruct (last_some crv_of is) as [v|]; [|exact E4]. destruct E4 as (t & Ht & ->). f_equal. f_equal.
    apply (decimal_fun v); [exact Ht|apply display_z_decimal].
  - intros ->. rewrite H1, H2, H3, H4. repeat split. destruct (last_some crv_of is) as [v|]; [|reflexivity].
    exists (display_z v). split; [apply display_z_decimal|reflexivity].
Qed.
Lemma map_iff l n r : cbor_map l = Some (Some n, r) <-> exists h, head_of 5 n h /\ l = h ++ r.
Proof.
  rewrite <- (head_arg_iff l 5 n r) by lia. unfold cbor_map, head_arg. destruct (cbor_head l) as [[[m i] r0]|] eqn:H; [|split; discriminate].
  assert (A : forall x, cbor_argument i r0 = Some x -> (i =? 31)%N = false).
  { intros x E. destruct (N.eqb_spec i 31) as [->|]; [discriminate E|reflexivity]. }
  assert (D : m = 5%N \/ m <> 5%N) by lia. destruct D as [->|D].
  - destruct (cbor_argument i r0) as [[n' r']|].
    + rewrite (A _ eq_refl). split; [intros [= -> ->]; reflexivity|intros [= -> ->]; reflexivity].
    + destruct (i =? 31)%N; split; discriminate.
  - split.
    + intros X. exfalso. destruct m as [|[[]|[]|]]; try discriminate. destruct p as [p|p|]; try discriminate. congruence.
    + intros X. exfalso. destruct (cbor_argument i r0) as [[n' r']|]; [|discriminate]. injection X as X _ _. congruence.
Qed.
Lemma attested_iff b : attested b <-> (N.land (b2n b) 64 =? 64)%N = true.
Proof. unfold attested, b2n. destruct b; vm_compute; tauto. Qed.

(** ** Authenticator data *)
Lemma exact_iff n l text a r : read_exact n l text = Ok (a, r) <-> length a = n /\ l = a ++ r.
Proof. unfold read_exact. rewrite ok_or_ok. apply take_iff. Qed.
Lemma auth_iff raw a : auth_parse raw = Ok a <-> auth_layout raw a.
Proof.
  split.
  - unfold auth_parse. intros H.
    destruct (read_exact 32 raw _) as [[rp l1]| |] eqn:E1; try discriminate. cbn [bind] in H. apply exact_iff in E1. destruct E1 as [L1 ->].
    destruct (read_exact 1 l1 _) as [[fl l2]| |] eqn:E2; try discriminate. cbn [bind] in H. apply exact_iff in E2. destruct E2 as [L2 ->].
    destruct fl as [|f [|]]; try discriminate. cbn [index nth_error bind] in H.
    destruct (read_exact 4 l2 _) as [[ct l3]| |] eqn:E3; try discriminate. cbn [bind] in H. apply exact_iff in E3. destruct E3 as [L3 ->].
    destruct (read_exact 16 l3 _) as [[aa l4]| |] eqn:E4; try discriminate. cbn [bind] in H. apply exact_iff in E4. destruct E4 as [L4 ->].
    destruct (read_exact 2 l4 _) as [[cl l5]| |] eqn:E5; try discriminate. cbn [bind] in H. apply exact_iff in E5. destruct E5 as [L5 ->].
    destruct (read_exact _ l5 _) as [[ci l6]| |] eqn:E6; try discriminate. cbn [bind] in H. apply exact_iff in E6. destruct E6 as [L6 ->].
    destruct (N.land (b2n f) 64 =? 64)%N eqn:Ef; [|discriminate]. apply attested_iff in Ef.
    destruct (cbor_map l6) as [[[n|] l7]|] eqn:E7; try discriminate. cbn [bind] in H. apply map_iff in E7. destruct E7 as (h & Hh & ->).
    destruct (N.ltb_spec 256 n) as [B|B]; [discriminate|].
    destruct (cose_entries _ _ l7) as [k| |] eqn:E8; try discriminate. cbn [bind ok_or] in H. injection H as <-.
    apply entries_iff in E8. destruct E8 as (is & bs & r & Hn & His & -> & Hk). apply key_iff in Hk.
    exists ct, cl, is, (h ++ bs), r. cbn [ad_rpid_hash ad_flags ad_sign_count ad_aaguid ad_credential_id ad_cose_key].
    split; [rewrite <- !app_assoc; reflexivity|]. split; [exact L1|]. split; [exact Ef|]. split; [exact L3|]. split; [apply magnitude_from_be|].
    split; [exact L4|]. split; [exact L5|]. split; [rewrite magnitude_from_be; unfold size; lia|]. split; [|exact Hk].
    split; [lia|]. exists h, bs. split; [|auto]. replace (N.of_nat (length is)) with n by lia. exact Hh.
  - intros (ct & cl & is & m & extra & -> & L1 & Ef & L3 & M3 & L4 & L5 & M5 & (Hn & h & b & Hh & His & ->) & Hk).
    destruct a as [rp f sc aa ci k]. cbn [ad_rpid_hash ad_flags ad_sign_count ad_aaguid ad_credential_id ad_cose_key] in *. unfold auth_parse.
    rewrite (proj2 (exact_iff 32 _ _ rp _)) by (split; [exact L1|reflexivity]). cbn [bind].
    rewrite (proj2 (exact_iff 1 _ _ [f] _)) by (split; reflexivity). cbn [bind index nth_error].
    rewrite (proj2 (exact_iff 4 _ _ ct _)) by (split; [exact L3|reflexivity]). cbn [bind].
    rewrite (proj2 (exact_iff 16 _ _ aa _)) by (split; [exact L4|reflexivity]). cbn [bind].
    rewrite (proj2 (exact_iff 2 _ _ cl _)) by (split; [exact L5|reflexivity]). cbn [bind].
    rewrite magnitude_from_be in M3, M5. rewrite (proj2 (exact_iff _ _ _ ci _)) by (split; [rewrite M5; unfold size; lia|reflexivity]). cbn [bind].
    rewrite (proj1 (attested_iff f) Ef). rewrite <- !app_assoc. rewrite (proj2 (map_iff _ (N.of_nat (length is)) (b ++ extra))) by eauto. cbn [bind].
    replace (256 <? N.of_nat (length is))%N with false by lia.
    rewrite (proj2 (entries_iff _ _ _ k)); [cbn [bind ok_or]; rewrite M3; reflexivity|].
    exists is, b, extra. split; [lia|]. split; [exact His|]. split; [reflexivity|]. apply key_iff, Hk.
Qed.
Lemma auth_nopanic raw : auth_parse raw <> Panic.
Proof.
  unfold auth_parse.
  assert (X : forall n l t, read_exact n l t <> Panic) by (intros n l t; unfold read_exact; destruct (take n l); discriminate).
  destruct (read_exact 32 raw _) as [[rp l1]| |] eqn:E1; [|discriminate|exfalso; exact (X _ _ _ E1)]. cbn [bind].
  destruct (read_exact 1 l1 _) as [[fl l2]| |] eqn:E2; [|discriminate|exfalso; exact (X _ _ _ E2)]. cbn [bind].
  apply exact_iff in E2. destruct E2 as [L2 _]. destruct fl as [|f [|]]; try discriminate. cbn [index nth_error bind].
  destruct (read_exact 4 l2 _) as [[ct l3]| |] eqn:E3; [|discriminate|exfalso; exact (X _ _ _ E3)]. cbn [bind].
  destruct (read_exact 16 l3 _) as [[aa l4]| |] eqn:E4; [|discriminate|exfalso; exact (X _ _ _ E4)]. cbn [bind].
  destruct (read_exact 2 l4 _) as [[cl l5]| |] eqn:E5; [|discriminate|exfalso; exact (X _ _ _ E5)]. cbn [bind].
  destruct (read_exact _ l5 _) as [[ci l6]| |] eqn:E6; [|discriminate|exfalso; exact (X _ _ _ E6)]. cbn [bind].
  destruct (_ =? 64)%N; [|discriminate]. destruct (cbor_map l6) as [[[n|] l7]|]; try discriminate. cbn [bind].
  destruct (256 <? n)%N; [discriminate|]. pose proof (entries_nopanic (N.to_nat n) (mkCose 0 0 [] []) l7) as Hp.
  destruct (cose_entries _ _ l7); cbn; try discriminate. congruence.
Qed.

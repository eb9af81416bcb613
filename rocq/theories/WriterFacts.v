(** Lemmas about the writer: every method appends an encoding. *)
From Verif Require Import Base BaseFacts Utf8 Reader ReaderFacts KeyType PubKeyType Writer.

Lemma write_bytes_enc v w : fits v -> write_bytes v w = w ++ enc_bytes v.
Proof.
  intros H. unfold write_bytes, enc_bytes. rewrite len32_small by exact H.
  rewrite app_assoc. reflexivity.
Qed.
Lemma write_string_enc v w : fits v -> write_string v w = w ++ enc_bytes v.
Proof. apply write_bytes_enc. Qed.

(** Magnitude without leading zeros. *)
Definition strip0 (m : bytes) : bytes := skipn (leading_zeros m) m.

Lemma strip0_no_lead m : no_lead_zero (strip0 m).
Proof.
  unfold strip0. induction m as [|b m IH]; simpl; [exact I|].
  destruct (b2n b =? 0)%N eqn:E; simpl; [exact IH|lia].
Qed.
Lemma strip0_id m : no_lead_zero m -> strip0 m = m.
Proof.
  unfold strip0. destruct m as [|b m]; simpl; [reflexivity|].
  intros H. destruct (b2n b =? 0)%N eqn:E; [lia|reflexivity].
Qed.
Lemma strip0_idem m : strip0 (strip0 m) = strip0 m.
Proof. apply strip0_id, strip0_no_lead. Qed.
Lemma strip0_value m : from_be (strip0 m) = from_be m.
Proof.
  unfold strip0. induction m as [|b m IH]; [reflexivity|]. simpl leading_zeros.
  destruct (b2n b =? 0)%N eqn:E; [|reflexivity]. simpl skipn. rewrite IH, from_be_cons. lia.
Qed.
Lemma strip0_length m : length (strip0 m) <= length m.
Proof. unfold strip0. rewrite skipn_length. lia. Qed.

Definition enc_mpint (m : bytes) : bytes := enc_bytes (mpint_bytes (strip0 m)).
Definition fits_mpint (m : bytes) : Prop := (N.of_nat (length m) < 2 ^ 32 - 1)%N.

Lemma fits_mpint_bytes m : fits_mpint m -> fits (mpint_bytes (strip0 m)).
Proof.
  unfold fits_mpint, fits, mpint_bytes. pose proof (strip0_length m).
  destruct (strip0 m) as [|b t]; [simpl; lia|].
  destruct (128 <=? b2n b)%N; simpl in *; lia.
Qed.

Lemma write_mpint_eq v w : write_mpint v w = write_bytes (mpint_bytes (strip0 v)) w.
Proof.
  unfold write_mpint, mpint_bytes. fold (strip0 v). destruct (strip0 v) as [|b t]; reflexivity.
Qed.

Lemma write_mpint_enc v w : fits_mpint v -> write_mpint v w = w ++ enc_mpint v.
Proof.
  intros H. rewrite write_mpint_eq, write_bytes_enc by (apply fits_mpint_bytes, H). reflexivity.
Qed.

Lemma fold_write_string vec : forall w, Forall fits vec ->
  fold_left (fun w item => write_string item w) vec w = w ++ concat (map enc_bytes vec).
Proof.
  induction vec as [|v vec IH]; intros w H; simpl; [rewrite app_nil_r; reflexivity|].
  inversion H; subst. rewrite write_string_enc by assumption. rewrite IH by assumption.
  rewrite <- app_assoc. reflexivity.
Qed.

Lemma fold_left_add l : forall a, fold_left (fun x y => x + y) l a = a + fold_left (fun x y => x + y) l 0.
Proof.
  induction l as [|x l IH]; intros a; simpl; [lia|]. rewrite IH, (IH x). lia.
Qed.

Lemma string_vec_length vec :
  fold_left (fun x y => x + y) (map (@length byte) vec) (length vec * 4)
  = length (concat (map enc_bytes vec)).
Proof.
  induction vec as [|v vec IH]; [reflexivity|]. cbn [map fold_left concat].
  rewrite app_length, enc_bytes_length, <- IH.
  rewrite fold_left_add. rewrite (fold_left_add _ (length vec * 4)). simpl. lia.
Qed.

Definition enc_vec (vec : list bytes) : bytes := enc_bytes (concat (map enc_bytes vec)).
Definition fits_vec (vec : list bytes) : Prop := fits (concat (map enc_bytes vec)).

Lemma fits_vec_each vec : fits_vec vec -> Forall fits vec.
Proof.
  unfold fits_vec, fits. induction vec as [|v vec IH]; cbn [map concat]; [constructor|].
  rewrite app_length, enc_bytes_length. intros H. constructor; [lia|]. apply IH. lia.
Qed.

Lemma write_string_vec_enc vec w : fits_vec vec -> write_string_vec vec w = w ++ enc_vec vec.
Proof.
  intros H. unfold write_string_vec. rewrite fold_write_string by (apply fits_vec_each, H).
  rewrite string_vec_length. unfold write_u32, enc_vec, enc_bytes.
  rewrite N.mod_small by exact H. rewrite <- app_assoc. reflexivity.
Qed.

(** One map entry: name, then an empty value or a length-wrapped string. *)
Definition enc_opt_value (v : bytes) : bytes :=
  match v with [] => [] | _ => enc_bytes v end.
Definition enc_entry (kv : bytes * bytes) : bytes :=
  enc_bytes (fst kv) ++ enc_bytes (enc_opt_value (snd kv)).
Arguments enc_entry : simpl never.
Definition enc_map_body (m : hashmap) : bytes := concat (map enc_entry m).
Definition enc_map (m : hashmap) : bytes := enc_bytes (enc_map_body m).
Definition fits_map (m : hashmap) : Prop := fits (enc_map_body m).

Lemma enc_entry_length kv :
  length (enc_entry kv)
  = 8 + length (fst kv) + length (snd kv) + match snd kv with [] => 0 | _ => 4 end.
Proof.
  destruct kv as [k v]. unfold enc_entry, enc_opt_value. simpl fst; simpl snd.
  rewrite app_length, !enc_bytes_length. destruct v; [simpl; lia|].
  rewrite enc_bytes_length. simpl length. lia.
Qed.

Lemma map_total_length m :
  fold_left (fun x y => x + y)
      (map (fun x => length (fst x) + length (snd x)
                     + match snd x with [] => 0 | _ => 4 end) m)
      (length m * 8)
  = length (enc_map_body m).
Proof.
  unfold enc_map_body. induction m as [|kv m IH]; [reflexivity|].
  cbn [map fold_left concat]. rewrite app_length, enc_entry_length, <- IH.
  rewrite fold_left_add. rewrite (fold_left_add _ (length m * 8)).
  match goal with |- context [fold_left ?f (map ?g m) 0] => set (F := fold_left f (map g m) 0) end.
  clearbody F. destruct kv as [k [|b v]]; cbn [fst snd length]; lia.
Qed.

Lemma write_map_entry_enc kv w : (N.of_nat (length (enc_entry kv)) < 2 ^ 32)%N ->
  write_map_entry kv w = Ok (w ++ enc_entry kv).
Proof.
  rewrite enc_entry_length. destruct kv as [k v]. simpl fst; simpl snd. intros H.
  unfold write_map_entry, enc_entry, enc_opt_value. simpl fst; simpl snd.
  rewrite write_string_enc by (unfold fits; lia). destruct v as [|b v].
  - unfold write_u32. rewrite <- app_assoc. reflexivity.
  - cbn iota in H. set (vv := b :: v) in *. assert (Hv : fits vv) by (unfold fits; lia).
    unfold u32_add. rewrite len32_small by exact Hv.
    replace (N.of_nat (length vv) + 4 <? 2 ^ 32)%N with true by lia. simpl bind.
    rewrite write_string_enc by exact Hv. unfold write_u32. rewrite <- !app_assoc.
    change (enc_bytes (enc_bytes vv))
      with (to_be 4 (N.of_nat (length (enc_bytes vv))) ++ enc_bytes vv).
    rewrite enc_bytes_length.
    replace (N.of_nat (4 + length vv)) with (N.of_nat (length vv) + 4)%N by lia. reflexivity.
Qed.

Lemma write_map_entries_enc m : forall w, fits_map m ->
  write_map_entries m w = Ok (w ++ enc_map_body m).
Proof.
  unfold fits_map, fits, enc_map_body.
  induction m as [|kv m IH]; intros w H; cbn [map concat write_map_entries];
    [rewrite app_nil_r; reflexivity|].
  cbn [map concat] in H. rewrite app_length in H.
  rewrite write_map_entry_enc by lia. cbn [bind].
  rewrite IH by lia. rewrite app_assoc. reflexivity.
Qed.

Lemma write_string_map_enc m w : fits_map m -> write_string_map m w = Ok (w ++ enc_map m).
Proof.
  intros H. unfold write_string_map. rewrite map_total_length.
  rewrite write_map_entries_enc by exact H. unfold write_u32, enc_map, enc_bytes.
  rewrite N.mod_small by exact H. rewrite <- app_assoc. reflexivity.
Qed.

(** Public key data. *)
Definition enc_pub_data (k : pubkey) : bytes :=
  match pk_kind k with
  | PkRsa e n => enc_mpint e ++ enc_mpint n
  | PkEcdsa c key app =>
      enc_bytes (c_identifier c) ++ enc_bytes key
      ++ (if kt_is_sk (pk_type k) then match app with Some a => enc_bytes a | None => [] end else [])
  | PkEd25519 key app =>
      enc_bytes key
      ++ (if kt_is_sk (pk_type k) then match app with Some a => enc_bytes a | None => [] end else [])
  end.

Definition fits_pub (k : pubkey) : Prop :=
  match pk_kind k with
  | PkRsa e n => fits_mpint e /\ fits_mpint n
  | PkEcdsa c key app => fits (c_identifier c) /\ fits key
      /\ match app with Some a => fits a | None => True end
  | PkEd25519 key app => fits key /\ match app with Some a => fits a | None => True end
  end.

(** A hardware key carries its application. *)
Definition has_app (k : pubkey) : Prop :=
  match pk_kind k with
  | PkRsa _ _ => True
  | PkEcdsa _ _ app | PkEd25519 _ app => kt_is_sk (pk_type k) = true -> app <> None
  end.



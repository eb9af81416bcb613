(** Lemmas about certificates. *)
From Verif Require Import Base BaseFacts Utf8 Utf8Facts SpecWire SpecKeys SpecSig SpecCert Reader ReaderFacts
  LocalFacts KeyType KeyTypeFacts PubKeyType Writer WriterFacts WireFacts Crypto PubKey PubKeyFacts
  Signature SignatureFacts Cert.

(** ** Principals *)
Definition str_ok (s : bytes) : Prop := fits s /\ utf8_valid s = true.
Lemma text_ok_iff s : text_ok s <-> str_ok s.
Proof. unfold text_ok, str_ok. rewrite field_ok_fits, utf8_valid_iff. tauto. Qed.

(** The three outcomes of reading a string. *)
Lemma read_string_cases r :
  (rest r = [] /\ read_string r = (Err EUnexpectedEof, r))
  \/ (exists s post, rest r = enc_bytes s ++ post /\ str_ok s
        /\ read_string r = (Ok s, mkReader (r_inner r) (r_off r + length (enc_bytes s))))
  \/ (rest r <> [] /\ exists e r', e <> EUnexpectedEof /\ read_string r = (Err e, r')
        /\ ~ exists s post, rest r = enc_bytes s ++ post /\ str_ok s).
Proof.
  destruct (rest r) as [|x l] eqn:R.
  - left. split; [reflexivity|]. rewrite read_string_eq, read_bytes_eq, rest_end, R. reflexivity.
  - right. destruct (read_string r) as [[s|e|] r'] eqn:E.
    + left. destruct r as [inner off]. apply parses_read_string in E.
      destruct E as (bs & post & [H ->] & Hs & ->). exists s, post. unfold rest in R. cbn [r_inner r_off] in *.
      rewrite <- R, Hs. auto.
    + right. split; [discriminate|]. exists e, r'. split; [|split; [reflexivity|]].
      * rewrite read_string_eq, read_bytes_eq, rest_end, R in E. intros ->.
        destruct (_ <? 4); [discriminate|]. destruct (_ <? _)%N; [discriminate|].
        destruct (utf8_valid _); discriminate.
      * intros (s & post & H & Hs). destruct r as [inner off].
        assert (X : read_string (mkReader inner off) = (Ok s, mkReader inner (off + length (enc_bytes s)))).
        { apply parses_read_string. exists (enc_bytes s), post. unfold rest in R. cbn [r_inner r_off] in *.
          split; [split; [exact Hs|reflexivity]|]. split; [congruence|reflexivity]. }
        congruence.
    + exfalso. pose proof (nopanic_read_string r) as H. rewrite E in H. auto.
Qed.

Lemma rest_next r s post : rest r = enc_bytes s ++ post ->
  rest (mkReader (r_inner r) (r_off r + length (enc_bytes s))) = post.
Proof. intros H. rewrite rest_adv, H, skipn_app_exact; reflexivity. Qed.

Lemma principals_loop fuel : forall items r, length (rest r) <= fuel ->
  (exists ps, Forall str_ok ps /\ rest r = concat (map enc_bytes ps)
     /\ fst (read_principals_loop fuel items r) = Ok (items ++ ps))
  \/ ((exists e, fst (read_principals_loop fuel items r) = Err e)
      /\ ~ exists ps, Forall str_ok ps /\ rest r = concat (map enc_bytes ps)).
Proof.
  induction fuel as [|fuel IH]; intros items r Hl.
  - left. exists []. assert (R : rest r = []) by (destruct (rest r); [reflexivity|cbn in Hl; lia]).
    split; [constructor|]. split; [exact R|]. cbn [read_principals_loop].
    destruct (read_string_cases r) as [[_ ->]|[(s & post & H & _)|[H _]]]; [|exfalso..].
    + cbn [fst]. rewrite app_nil_r. reflexivity.
    + rewrite R in H. symmetry in H. apply enc_bytes_nonempty in H. exact H.
    + contradiction.
  - destruct (read_string_cases r) as [[R E]|[(s & post & H & Hs & E)|(Hne & e & r' & He & E & Hno)]].
    + left. exists []. cbn [read_principals_loop]. rewrite E. cbn [fst]. rewrite app_nil_r. auto.
    + cbn [read_principals_loop]. rewrite E.
      pose proof (rest_next r s post H) as Hn.
      destruct (IH (items ++ [s]) (mkReader (r_inner r) (r_off r + length (enc_bytes s)))) as [(ps & H1 & H2 & H3)|[(e & H1) H2]].
      * rewrite Hn. rewrite H in Hl. rewrite app_length, enc_bytes_length in Hl. lia.
      * left. exists (s :: ps). split; [constructor; assumption|].
        rewrite Hn in H2. rewrite H. cbn [map concat]. rewrite <- H2. split; [reflexivity|].
        rewrite H3, <- app_assoc. reflexivity.
      * right. split; [eauto|]. intros (ps & H3 & H4). apply H2. rewrite Hn.
        rewrite H in H4. destruct ps as [|p ps]; cbn [map concat] in H4.
        { apply enc_bytes_nonempty in H4. destruct H4. }
        inversion H3 as [|? ? Hp Hps]; subst. apply enc_bytes_inj in H4; [|apply Hs|apply Hp]. destruct H4 as [_ ->]. eauto.
    + right. cbn [read_principals_loop]. rewrite E. split.
      * destruct e; cbn [fst]; eauto. congruence.
      * intros (ps & H1 & H2). destruct ps as [|p ps]; cbn [map concat] in H2; [contradiction|].
        apply Hno. exists p, (concat (map enc_bytes ps)). inversion H1; auto.
Qed.

Lemma read_principals_iff buf ps :
  read_principals buf = Ok ps <-> Forall str_ok ps /\ buf = concat (map enc_bytes ps).
Proof.
  unfold read_principals, run.
  destruct (principals_loop (S (length buf)) [] (reader_new buf)) as [(qs & H1 & H2 & H3)|[(e & H1) H2]].
  - unfold rest, reader_new. cbn. lia.
  - rewrite H3. cbn [app]. unfold rest, reader_new in H2. cbn [r_off r_inner skipn] in H2. split.
    + intros [= <-]. auto.
    + intros [Hp E]. f_equal. rewrite H2 in E. clear -E H1 Hp. revert ps E Hp.
      induction H1 as [|q qs Hq Hqs IH]; intros [|p ps] E Hp; auto; cbn [map concat] in E.
      * symmetry in E. apply enc_bytes_nonempty in E. destruct E.
      * apply enc_bytes_nonempty in E. destruct E.
      * inversion Hp as [|? ? Hp1 Hp2]; subst. apply enc_bytes_inj in E; [|apply Hq|apply Hp1]. destruct E as [-> E].
        f_equal. apply IH; auto.
  - rewrite H1. split; [discriminate|]. intros H. exfalso. apply H2. exists ps. exact H.
Qed.
Lemma read_principals_not_panic buf : read_principals buf <> Panic.
Proof.
  unfold read_principals, run.
  destruct (principals_loop (S (length buf)) [] (reader_new buf)) as [(qs & H1 & H2 & H3)|[(e & H1) H2]].
  - unfold rest, reader_new. cbn. lia.
  - rewrite H3. discriminate.
  - rewrite H1. discriminate.
Qed.
Lemma principals_data_iff ps bs : principals_data ps bs <-> read_principals bs = Ok ps.
Proof.
  rewrite read_principals_iff. unfold principals_data.
  assert (E : map field ps = map enc_bytes ps) by (apply map_ext; intros; apply field_enc).
  rewrite E. split; intros [H1 H2]; split; auto; (eapply Forall_impl; [|exact H1]); intros a; apply text_ok_iff.
Qed.

(** ** Options *)
Definition value_rel (v bs : bytes) : Prop :=
  (v = [] /\ bs = enc_bytes [])
  \/ (exists tl, str_ok v /\ fits (enc_bytes v ++ tl) /\ bs = enc_bytes (enc_bytes v ++ tl)).
Lemma option_value_iff v bs : option_value v bs <-> value_rel v bs.
Proof.
  unfold value_rel. split.
  - destruct 1 as [|v tl H1 H2]; [left; auto|]. right. exists tl. rewrite !field_enc in *.
    rewrite field_ok_fits in H2. apply text_ok_iff in H1. auto.
  - intros [[-> ->]|(tl & H1 & H2 & ->)]; [apply OV_flag|].
    rewrite <- !field_enc in *. apply OV_text; [apply text_ok_iff, H1|apply field_ok_fits, H2].
Qed.

Lemma parses_option_value : parses read_option_value value_rel.
Proof.
  unfold read_option_value.
  eapply parses_ext; [|apply parses_bind with (Q := fun vb v bs => bs = [] /\
     match vb with [] => v = [] | _ => exists tl, str_ok v /\ vb = enc_bytes v ++ tl end);
     [apply parses_read_bytes|]].
  - intros v bs. cbn beta. split.
    + intros (vb & b1 & b2 & -> & [Hf ->] & -> & H). rewrite app_nil_r.
      destruct vb as [|x vb].
      * left. auto.
      * right. destruct H as (tl & H1 & H2). rewrite H2 in *. eauto.
    + intros [[-> ->]|(tl & H1 & H2 & ->)].
      * exists [], (enc_bytes []), []. rewrite app_nil_r. split; [reflexivity|]. split; [|auto].
        split; [unfold fits; cbn; lia|reflexivity].
      * exists (enc_bytes v ++ tl), (enc_bytes (enc_bytes v ++ tl)), []. rewrite app_nil_r.
        split; [reflexivity|]. split; [auto|]. split; [reflexivity|].
        destruct (enc_bytes v ++ tl) eqn:E; [apply enc_bytes_nonempty in E; destruct E|]. eauto.
  - intros [|x vb].
    + eapply parses_ext; [|apply parses_ret]. intros v bs. cbn beta. tauto.
    + eapply parses_ext; [|apply parses_lift]. intros v bs. cbn beta.
      rewrite (run_parses _ _ (x :: vb) v parses_read_string). split.
      * intros [(b & post & [H ->] & E) ->]. split; [reflexivity|]. eauto.
      * intros [-> (tl & H & E)]. split; [|reflexivity]. eauto 6.
Qed.
Lemma nopanic_option_value : nopanic read_option_value.
Proof.
  apply nopanic_bind; [apply nopanic_read_bytes|]. intros [|x vb]; [apply nopanic_ret|].
  apply nopanic_lift, nopanic_run, nopanic_read_string.
Qed.

(** Entries and their bytes. *)
Inductive entries_rel : list (bytes * bytes) -> bytes -> Prop :=
| ER_nil : entries_rel [] []
| ER_cons name v b l bs : str_ok name -> value_rel v b -> entries_rel l bs ->
    entries_rel ((name, v) :: l) (enc_bytes name ++ b ++ bs).
Lemma options_data_iff l bs : options_data l bs <-> entries_rel l bs.
Proof.
  split.
  - induction 1; [constructor|]. rewrite field_enc.
    constructor; [apply text_ok_iff; assumption|apply option_value_iff; assumption|assumption].
  - induction 1; [constructor|]. rewrite <- field_enc.
    constructor; [apply text_ok_iff; assumption|apply option_value_iff; assumption|assumption].
Qed.

Definition insert_all (l : list (bytes * bytes)) (m : hashmap) : hashmap :=
  fold_left (fun m e => hm_insert (fst e) (snd e) m) l m.

Lemma value_rel_inj v b w c x y : value_rel v b -> value_rel w c -> b ++ x = c ++ y -> v = w /\ x = y.
Proof.
  intros H1 H2 E. set (post := x).
  assert (A : read_option_value (mkReader (b ++ x) 0) = (Ok v, mkReader (b ++ x) (0 + length b)))
    by (apply parses_option_value; exists b, x; auto).
  assert (B : read_option_value (mkReader (b ++ x) 0) = (Ok w, mkReader (b ++ x) (0 + length c)))
    by (apply parses_option_value; exists c, y; auto).
  rewrite A in B. injection B as -> L. split; [reflexivity|].
  apply app_inj_length in E; [apply E|lia].
Qed.
Lemma entries_rel_inv l bs : entries_rel l bs ->
  (l = [] /\ bs = []) \/ exists name v b l' bs', l = (name, v) :: l' /\ bs = enc_bytes name ++ b ++ bs'
     /\ str_ok name /\ value_rel v b /\ entries_rel l' bs'.
Proof. destruct 1; [left; auto|right; eauto 12]. Qed.
Lemma entries_rel_inj l bs : entries_rel l bs -> forall l', entries_rel l' bs -> l = l'.
Proof.
  induction 1 as [|name v b l bs Hn Hv Hl IH]; intros l' H'.
  - apply entries_rel_inv in H'. destruct H' as [[-> _]|(n & v & b & l2 & bs' & -> & E & _)]; [reflexivity|].
    symmetry in E. apply enc_bytes_nonempty in E. destruct E.
  - apply entries_rel_inv in H'. destruct H' as [[_ E]|(name' & v' & b' & l2 & bs' & -> & E & Hn' & Hv' & Hl')].
    + apply enc_bytes_nonempty in E. destruct E.
    + apply enc_bytes_inj in E; [|apply Hn|apply Hn']. destruct E as [-> E].
      apply (value_rel_inj v b v' b') in E; [|assumption..]. destruct E as [-> ->].
      f_equal. apply IH. assumption.
Qed.

Lemma options_loop fuel : forall m r, length (rest r) <= fuel ->
  (exists l, entries_rel l (rest r)
     /\ fst (read_options_loop fuel m r) = Ok (insert_all l m))
  \/ ((exists e, fst (read_options_loop fuel m r) = Err e)
      /\ ~ exists l, entries_rel l (rest r)).
Proof.
  induction fuel as [|fuel IH]; intros m r Hl.
  - left. exists []. assert (R : rest r = []) by (destruct (rest r); [reflexivity|cbn in Hl; lia]).
    rewrite R. split; [constructor|]. cbn [read_options_loop].
    destruct (read_string_cases r) as [[_ ->]|[(s & post & H & _)|[H _]]]; [|exfalso..].
    + reflexivity.
    + rewrite R in H. symmetry in H. apply enc_bytes_nonempty in H. exact H.
    + contradiction.
  - destruct (read_string_cases r) as [[R E]|[(s & post & H & Hs & E)|(Hne & e & r' & He & E & Hno)]].
    + left. exists []. cbn [read_options_loop]. rewrite E, R. split; [constructor|reflexivity].
    + cbn [read_options_loop]. rewrite E.
      pose proof (rest_next r s post H) as Hn.
      set (r1 := mkReader (r_inner r) (r_off r + length (enc_bytes s))) in *.
      unfold mbind. destruct (read_option_value r1) as [[v|e|] r2] eqn:Ev.
      * assert (Ev' := Ev). unfold r1 in Ev'. apply parses_option_value in Ev'.
        destruct Ev' as (b & post2 & Hv & Hsk & Hr2).
        change (skipn (r_off r + length (enc_bytes s)) (r_inner r)) with (rest r1) in Hsk.
        assert (Hn2 : rest r2 = post2).
        { rewrite Hr2. unfold rest. cbn [r_off r_inner]. rewrite <- skipn_skipn'.
          change (skipn (r_off r + length (enc_bytes s)) (r_inner r)) with (rest r1).
          rewrite Hsk, skipn_app_exact; reflexivity. }
        assert (Hp : post = b ++ post2) by congruence.
        destruct (IH (hm_insert s v m) r2) as [(l & H1 & H2)|[(e & H1) H2]].
        -- rewrite Hn2. rewrite H, Hp in Hl. rewrite !app_length, enc_bytes_length in Hl. lia.
        -- left. exists ((s, v) :: l). rewrite H, Hp. rewrite Hn2 in H1. split; [constructor; assumption|].
           exact H2.
        -- right. split; [eauto|]. intros (l & Hl'). apply H2. rewrite Hn2.
           rewrite H, Hp in Hl'. apply entries_rel_inv in Hl'. destruct Hl' as [[_ E2]|(name' & v' & b' & l2 & bs' & -> & E2 & Hn' & Hv' & Hl2)].
           { apply enc_bytes_nonempty in E2. destruct E2. }
           apply enc_bytes_inj in E2; [|apply Hs|apply Hn']. destruct E2 as [<- E2].
           apply (value_rel_inj v b v' b') in E2; [|assumption..]. destruct E2 as [<- ->]. eauto.
      * right. split; [cbn [fst]; eauto|]. intros (l & Hl').
        rewrite H in Hl'. apply entries_rel_inv in Hl'. destruct Hl' as [[_ E2]|(name' & v' & b' & l2 & bs' & -> & E2 & Hn' & Hv' & Hl2)].
        { apply enc_bytes_nonempty in E2. destruct E2. }
        apply enc_bytes_inj in E2; [|apply Hs|apply Hn']. destruct E2 as [<- E2].
        assert (X : read_option_value r1 = (Ok v', mkReader (r_inner r) (r_off r + length (enc_bytes s) + length b'))).
        { unfold r1. apply parses_option_value. exists b', bs'. split; [exact Hv'|]. split; [|reflexivity].
          change (skipn (r_off r + length (enc_bytes s)) (r_inner r)) with (rest r1). congruence. }
        congruence.
      * exfalso. pose proof (nopanic_option_value r1) as X. rewrite Ev in X. auto.
    + right. cbn [read_options_loop]. rewrite E. split.
      * destruct e; cbn [fst]; eauto. congruence.
      * intros (l & Hl'). apply entries_rel_inv in Hl'. destruct Hl' as [[_ E2]|(name' & v' & b' & l2 & bs' & -> & E2 & Hn' & Hv' & Hl2)].
        { congruence. }
        apply Hno. exists name', (b' ++ bs'). auto.
Qed.

Lemma read_options_iff buf m :
  read_options buf = Ok m <-> exists l, entries_rel l buf /\ m = insert_all l [].
Proof.
  unfold read_options, run.
  destruct (options_loop (S (length buf)) [] (reader_new buf)) as [(l & H2 & H3)|[(e & H1) H2]].
  - unfold rest, reader_new. cbn. lia.
  - rewrite H3. unfold rest, reader_new in H2. cbn [r_off r_inner skipn] in H2. split.
    + intros [= <-]. eauto.
    + intros (l' & Hl' & ->). rewrite (entries_rel_inj _ _ H2 _ Hl'). reflexivity.
  - rewrite H1. split; [discriminate|]. intros (l & H & _). exfalso. apply H2. exists l. exact H.
Qed.
Lemma read_options_not_panic buf : read_options buf <> Panic.
Proof.
  unfold read_options, run.
  destruct (options_loop (S (length buf)) [] (reader_new buf)) as [(l & H2 & H3)|[(e & H1) H2]].
  - unfold rest, reader_new. cbn. lia.
  - rewrite H3. discriminate.
  - rewrite H1. discriminate.
Qed.

(** [insert_all] builds the map of the entries. *)
Lemma insert_all_nodup l : forall m, NoDup (map fst m) -> NoDup (map fst (insert_all l m)).
Proof.
  induction l as [|[k v] l IH]; intros m H; [exact H|]. cbn [insert_all fold_left fst snd].
  apply IH. apply hm_insert_nodup, H.
Qed.
Lemma insert_all_get l : forall m k,
  (exists v pre post, l = pre ++ (k, v) :: post /\ ~ In k (map fst post) /\ hm_get k (insert_all l m) = Some v)
  \/ (~ In k (map fst l) /\ hm_get k (insert_all l m) = hm_get k m).
Proof.
  induction l as [|[k' v'] l IH]; intros m k; [right; auto|].
  cbn [insert_all fold_left fst snd]. destruct (IH (hm_insert k' v' m) k) as [(v & pre & post & -> & H1 & H2)|[H1 H2]].
  - left. exists v, ((k', v') :: pre), post. auto.
  - destruct (bytes_dec k' k) as [->|Hne].
    + left. exists v', [], l. split; [reflexivity|]. split; [exact H1|].
      unfold insert_all in H2. rewrite H2. apply hm_get_insert_same.
    + right. split; [cbn [map fst In]; intros [H|H]; auto|].
      unfold insert_all in H2. rewrite H2. apply hm_get_insert_other. congruence.
Qed.
Lemma last_unique {A} (k : bytes) (v v' : A) pre post pre' post' :
  ~ In k (map fst post) -> ~ In k (map fst post') ->
  pre ++ (k, v) :: post = pre' ++ (k, v') :: post' -> v = v'.
Proof.
  revert pre'. induction pre as [|[a b] pre IH]; intros [|[a' b'] pre'] H1 H2 E; cbn [app] in E.
  - congruence.
  - injection E as -> -> E. subst post. exfalso. apply H1. rewrite map_app. apply in_or_app. right. left. reflexivity.
  - injection E as -> -> E. subst post'. exfalso. apply H2. rewrite map_app. apply in_or_app. right. left. reflexivity.
  - injection E as -> -> E. eapply IH; eauto.
Qed.
Lemma map_of_insert_all l : map_of l (insert_all l []).
Proof.
  assert (ND : NoDup (map fst (insert_all l []))) by (apply insert_all_nodup; constructor).
  split; [exact ND|]. intros k v. rewrite <- (hm_get_in k _ v ND).
  destruct (insert_all_get l [] k) as [(v' & pre & post & -> & H1 & H2)|[H1 H2]].
  - rewrite H2. split.
    + intros [= <-]. eauto.
    + intros (pre' & post' & E & H3). f_equal. exact (last_unique k v' v pre post pre' post' H1 H3 E).
  - rewrite H2. split; [discriminate|]. intros (pre' & post' & -> & _). exfalso. apply H1.
    rewrite map_app. apply in_or_app. right. left. reflexivity.
Qed.
Lemma map_of_same l m m' : map_of l m -> map_of l m' -> same_map m m'.
Proof. intros [_ H1] [_ H2] k v. rewrite H1, H2. tauto. Qed.

(** ** The signed part *)
Definition signed_parser : M cert :=
  do! kt_name <- read_string;
  do! kt <- lift (kt_from_name kt_name);
  if negb (kt_is_cert kt) then throw ENotCertificate else
  do! nonce <- read_bytes;
  do! key <- pk_from_reader (as_pubkey_name kt);
  do! serial <- read_u64;
  do! ctype <- read_cert_type;
  do! key_id <- read_string;
  do! pb <- read_bytes;
  do! principals <- lift (read_principals pb);
  do! valid_after <- read_u64;
  do! valid_before <- read_u64;
  do! cb <- read_bytes;
  do! critical_options <- lift (read_options cb);
  do! eb <- read_bytes;
  do! extensions <- lift (read_options eb);
  do! reserved <- read_bytes;
  do! skb <- read_bytes;
  do! signature_key <- lift (pk_from_bytes skb);
  ret (mkCert kt nonce key serial ctype key_id principals valid_after valid_before
         critical_options extensions reserved signature_key [] None []).

Lemma parses_cert_type :
  parses read_cert_type (fun t bs => bs = to_be 4 (type_number t)).
Proof.
  unfold read_cert_type.
  eapply parses_ext; [|apply parses_bind; [apply parses_read_u32|intros n; apply parses_if; intros _;
    [apply parses_ret|apply parses_if; intros _; [apply parses_ret|apply parses_throw]]]].
  intros t bs. cbn beta. split.
  - intros (n & b1 & b2 & -> & [Hn ->] & [[E [-> ->]]|[_ [[E [-> ->]]|[_ []]]]]);
      apply N.eqb_eq in E; subst; rewrite app_nil_r; reflexivity.
  - intros ->. exists (type_number t), (to_be 4 (type_number t)), []. rewrite app_nil_r.
    split; [reflexivity|]. split; [split; [destruct t; cbn; lia|reflexivity]|].
    destruct t; [left; auto|right; split; [reflexivity|left; auto]].
Qed.
Lemma nopanic_cert_type : nopanic read_cert_type.
Proof.
  apply nopanic_bind; [apply nopanic_read_u32|intros n].
  destruct (n =? 1)%N; [apply nopanic_ret|]. destruct (n =? 2)%N; [apply nopanic_ret|apply nopanic_throw].
Qed.

Definition core (c : cert) (bs : bytes) : Prop :=
  exists pb cb eb skb skpost,
    known (ct_key_type c) /\ kt_is_cert (ct_key_type c) = true
    /\ fits (ct_nonce c)
    /\ known (pk_type (ct_key c)) /\ kt_name (pk_type (ct_key c)) = kt_plain (ct_key_type c)
    /\ pk_comment (ct_key c) = None /\ kind_ok (pk_type (ct_key c)) (pk_kind (ct_key c))
    /\ (ct_serial c < 2 ^ 64)%N /\ str_ok (ct_key_id c)
    /\ fits pb /\ read_principals pb = Ok (ct_principals c)
    /\ (ct_valid_after c < 2 ^ 64)%N /\ (ct_valid_before c < 2 ^ 64)%N
    /\ fits cb /\ read_options cb = Ok (ct_critical_options c)
    /\ fits eb /\ read_options eb = Ok (ct_extensions c)
    /\ fits (ct_reserved c)
    /\ fits skb /\ key_ok (ct_signature_key c) /\ skb = enc_key (ct_signature_key c) ++ skpost
    /\ bs = enc_bytes (kt_name (ct_key_type c)) ++ enc_bytes (ct_nonce c) ++ enc_kind (pk_kind (ct_key c))
         ++ to_be 8 (ct_serial c) ++ to_be 4 (type_number (ct_cert_type c)) ++ enc_bytes (ct_key_id c)
         ++ enc_bytes pb ++ to_be 8 (ct_valid_after c) ++ to_be 8 (ct_valid_before c)
         ++ enc_bytes cb ++ enc_bytes eb ++ enc_bytes (ct_reserved c) ++ enc_bytes skb.
Definition bare (c : cert) : Prop := ct_signature c = [] /\ ct_comment c = None /\ ct_serialized c = [].

Lemma parses_signed : parses signed_parser (fun c bs => bare c /\ core c bs).
Proof.
  unfold signed_parser.
  eapply parses_ext; [|
    apply parses_bind; [apply parses_read_string|intros name];
    apply parses_bind; [apply parses_lift|intros kt];
    apply parses_if; intros _; [apply parses_throw|];
    apply parses_bind; [apply parses_read_bytes|intros nonce];
    apply parses_bind; [apply parses_pk_from_reader|intros key];
    apply parses_bind; [apply parses_read_u64|intros serial];
    apply parses_bind; [apply parses_cert_type|intros t];
    apply parses_bind; [apply parses_read_string|intros key_id];
    apply parses_bind; [apply parses_read_bytes|intros pb];
    apply parses_bind; [apply parses_lift|intros ps];
    apply parses_bind; [apply parses_read_u64|intros va];
    apply parses_bind; [apply parses_read_u64|intros vb];
    apply parses_bind; [apply parses_read_bytes|intros cb];
    apply parses_bind; [apply parses_lift|intros co];
    apply parses_bind; [apply parses_read_bytes|intros eb];
    apply parses_bind; [apply parses_lift|intros ex];
    apply parses_bind; [apply parses_read_bytes|intros reserved];
    apply parses_bind; [apply parses_read_bytes|intros skb];
    apply parses_bind; [apply parses_lift|intros sk]; apply parses_ret].
  intros c bs. cbn beta. split.
  - intros (name & b1 & b2 & -> & [Hname ->] & kt & b3 & b4 & -> & [Hkt ->] & [[_ []]|[Hcert H]]).
    destruct H as (nonce & b5 & b6 & -> & [Hnonce ->] & key & b7 & b8 & -> & Hkey & H).
    destruct H as (serial & b9 & b10 & -> & [Hserial ->] & t & b11 & b12 & -> & -> & H).
    destruct H as (key_id & b13 & b14 & -> & [Hid ->] & pb & b15 & b16 & -> & [Hpb ->] & ps & b17 & b18 & -> & [Hps ->] & H).
    destruct H as (va & b19 & b20 & -> & [Hva ->] & vb & b21 & b22 & -> & [Hvb ->] & H).
    destruct H as (cb & b23 & b24 & -> & [Hcb ->] & co & b25 & b26 & -> & [Hco ->] & H).
    destruct H as (eb & b27 & b28 & -> & [Heb ->] & ex & b29 & b30 & -> & [Hex ->] & H).
    destruct H as (rs & b31 & b32 & -> & [Hrs ->] & skb & b33 & b34 & -> & [Hskb ->] & sk & b35 & b36 & -> & [Hsk ->] & -> & ->).
    split; [repeat split|]. apply kt_from_name_ok in Hkt. destruct Hkt as [Hkt ->].
    destruct Hkey as (K1 & K2 & K3 & K4 & ->). apply pk_from_bytes_iff in Hsk. destruct Hsk as [Hsk (skpost & ->)].
    exists pb, cb, eb, (enc_key sk ++ skpost), skpost.
    cbn [ct_key_type ct_nonce ct_key ct_serial ct_cert_type ct_key_id ct_principals ct_valid_after ct_valid_before
         ct_critical_options ct_extensions ct_reserved ct_signature_key].
    apply negb_false_iff in Hcert. cbn [app]. rewrite !app_nil_r. repeat (split; [assumption|]).
    split; [reflexivity|]. reflexivity.
  - intros [(B1 & B2 & B3) (pb & cb & eb & skb & skpost & Hkt & Hcert & Hnonce & K1 & K2 & K3 & K4 & Hserial & Hid
      & Hpb & Hps & Hva & Hvb & Hcb & Hco & Heb & Hex & Hrs & Hskb & Hsk & Eskb & ->)].
    eexists _, _, _. split; [reflexivity|].
    split. { split; [|reflexivity]. split; [apply known_fits, Hkt|apply known_utf8, Hkt]. }
    eexists _, [], _. split; [symmetry; apply app_nil_l|]. split; [split; [apply kt_from_name_ok; split; [exact Hkt|reflexivity]|reflexivity]|].
    right. split; [apply negb_false_iff; exact Hcert|].
    eexists _, _, _. split; [reflexivity|]. split; [split; [exact Hnonce|reflexivity]|].
    eexists (ct_key c), _, _. split; [reflexivity|]. split; [split; [exact K1|split; [exact K2|split; [exact K3|split; [exact K4|reflexivity]]]]|].
    eexists _, _, _. split; [reflexivity|]. split; [split; [exact Hserial|reflexivity]|].
    eexists _, _, _. split; [reflexivity|]. split; [reflexivity|].
    eexists _, _, _. split; [reflexivity|]. split; [split; [exact Hid|reflexivity]|].
    eexists _, _, _. split; [reflexivity|]. split; [split; [exact Hpb|reflexivity]|].
    eexists _, [], _. split; [symmetry; apply app_nil_l|]. split; [split; [exact Hps|reflexivity]|].
    eexists _, _, _. split; [reflexivity|]. split; [split; [exact Hva|reflexivity]|].
    eexists _, _, _. split; [reflexivity|]. split; [split; [exact Hvb|reflexivity]|].
    eexists _, _, _. split; [reflexivity|]. split; [split; [exact Hcb|reflexivity]|].
    eexists _, [], _. split; [symmetry; apply app_nil_l|]. split; [split; [exact Hco|reflexivity]|].
    eexists _, _, _. split; [reflexivity|]. split; [split; [exact Heb|reflexivity]|].
    eexists _, [], _. split; [symmetry; apply app_nil_l|]. split; [split; [exact Hex|reflexivity]|].
    eexists _, _, _. split; [reflexivity|]. split; [split; [exact Hrs|reflexivity]|].
    exists skb, (enc_bytes skb), []. split; [rewrite app_nil_r; reflexivity|]. split; [split; [exact Hskb|reflexivity]|].
    exists (ct_signature_key c), [], []. split; [reflexivity|].
    split. { split; [|reflexivity]. apply pk_from_bytes_iff. rewrite Eskb. eauto. }
    split; [|reflexivity]. destruct c; cbn in *; congruence.
Qed.

Lemma nopanic_signed : nopanic signed_parser.
Proof.
  unfold signed_parser.
  apply nopanic_bind; [apply nopanic_read_string|intros].
  apply nopanic_bind; [apply nopanic_lift, kt_from_name_not_panic|intros].
  destruct (negb _); [apply nopanic_throw|].
  apply nopanic_bind; [apply nopanic_read_bytes|intros].
  apply nopanic_bind; [apply nopanic_pk_from_reader|intros].
  apply nopanic_bind; [apply nopanic_read_u64|intros].
  apply nopanic_bind; [apply nopanic_cert_type|intros].
  apply nopanic_bind; [apply nopanic_read_string|intros].
  apply nopanic_bind; [apply nopanic_read_bytes|intros].
  apply nopanic_bind; [apply nopanic_lift, read_principals_not_panic|intros].
  apply nopanic_bind; [apply nopanic_read_u64|intros].
  apply nopanic_bind; [apply nopanic_read_u64|intros].
  apply nopanic_bind; [apply nopanic_read_bytes|intros].
  apply nopanic_bind; [apply nopanic_lift, read_options_not_panic|intros].
  apply nopanic_bind; [apply nopanic_read_bytes|intros].
  apply nopanic_bind; [apply nopanic_lift, read_options_not_panic|intros].
  apply nopanic_bind; [apply nopanic_read_bytes|intros].
  apply nopanic_bind; [apply nopanic_read_bytes|intros].
  apply nopanic_bind; [|intros; apply nopanic_ret]. apply nopanic_lift.
  unfold pk_from_bytes. apply nopanic_run. apply nopanic_bind; [apply nopanic_read_string|intros; apply nopanic_pk_from_reader].
Qed.

(** The rest of [from_bytes]. *)
Definition seal (c : cert) (signature data : bytes) : cert :=
  mkCert (ct_key_type c) (ct_nonce c) (ct_key c) (ct_serial c) (ct_cert_type c) (ct_key_id c)
    (ct_principals c) (ct_valid_after c) (ct_valid_before c) (ct_critical_options c)
    (ct_extensions c) (ct_reserved c) (ct_signature_key c) signature None data.
Definition cert_tail (C : crypto) (data : bytes) (c : cert) : M cert :=
  do! signed_len <- get_offset;
  do! signature <- read_bytes;
  do! _ <- set_offset 0;
  do! signed_bytes <- read_raw_bytes signed_len;
  do! _ <- lift (verify_signature C signature signed_bytes (ct_signature_key c));
  ret (seal c signature data).

Lemma cert_from_bytes_split C data :
  cert_from_bytes C data = run (do! c <- signed_parser; cert_tail C data c) data.
Proof.
  unfold cert_from_bytes, run, signed_parser, cert_tail, mbind, lift, ret, throw.
  set (r := reader_new data). clearbody r.
  repeat match goal with
  | |- ?x = ?x => reflexivity
  | |- context [match read_string ?r with _ => _ end] => destruct (read_string r) as [[?|?|] ?]; try reflexivity
  | |- context [match read_bytes ?r with _ => _ end] => destruct (read_bytes r) as [[?|?|] ?]; try reflexivity
  | |- context [match read_u64 ?r with _ => _ end] => destruct (read_u64 r) as [[?|?|] ?]; try reflexivity
  | |- context [match read_cert_type ?r with _ => _ end] => destruct (read_cert_type r) as [[?|?|] ?]; try reflexivity
  | |- context [match pk_from_reader ?n ?r with _ => _ end] => destruct (pk_from_reader n r) as [[?|?|] ?]; try reflexivity
  | |- context [match kt_from_name ?r with _ => _ end] => destruct (kt_from_name r) as [?|?|]; try reflexivity
  | |- context [match read_principals ?r with _ => _ end] => destruct (read_principals r) as [?|?|]; try reflexivity
  | |- context [match read_options ?r with _ => _ end] => destruct (read_options r) as [?|?|]; try reflexivity
  | |- context [match pk_from_bytes ?r with _ => _ end] => destruct (pk_from_bytes r) as [?|?|]; try reflexivity
  | |- context [if negb ?b then _ else _] => destruct (negb b); try reflexivity
  end.
Qed.

(** ** The whole certificate *)
Definition strip (c : cert) : cert := 
  mkCert (ct_key_type c) (ct_nonce c) (ct_key c) (ct_serial c) (ct_cert_type c) (ct_key_id c)
    (ct_principals c) (ct_valid_after c) (ct_valid_before c) (ct_critical_options c)
    (ct_extensions c) (ct_reserved c) (ct_signature_key c) [] None [].
Lemma core_seal c bs s d : core c bs -> core (seal c s d) bs.
Proof. exact (fun H => H). Qed.
Lemma seal_strip c s d : ct_comment c = None -> ct_signature c = s -> ct_serialized c = d ->
  seal (strip c) s d = c.
Proof. destruct c; cbn. intros -> -> ->. reflexivity. Qed.

Lemma bare_strip c : bare c -> c = strip c.
Proof. destruct c; intros (H1 & H2 & H3); cbn in *; subst; reflexivity. Qed.

Lemma core_length c bs : core c bs -> 0 < length bs.
Proof.
  intros (pb & cb & eb & skb & skpost & H). decompose [and] H. subst bs.
  rewrite app_length, enc_bytes_length. lia.
Qed.

Lemma core_prefix a b ba bb x y : core a ba -> core b bb -> ba ++ x = bb ++ y ->
  strip a = strip b /\ ba = bb /\ x = y.
Proof.
  intros Ha Hb E.
  assert (A : signed_parser (mkReader (ba ++ x) 0) = (Ok (strip a), mkReader (ba ++ x) (0 + length ba))).
  { apply parses_signed. exists ba, x. split; [split; [repeat split|exact Ha]|auto]. }
  assert (B : signed_parser (mkReader (ba ++ x) 0) = (Ok (strip b), mkReader (ba ++ x) (0 + length bb))).
  { apply parses_signed. exists bb, y. split; [split; [repeat split|exact Hb]|auto]. }
  rewrite A in B. injection B. intros L _ _ _ _ _ _ _ _ _ _ _ _ _. split.
  - congruence.
  - apply app_inj_length in E; [exact E|lia].
Qed.

Lemma tail_eval C data sp post c : data = sp ++ post -> 0 < length sp ->
  forall x, fst (cert_tail C data c (mkReader data (length sp))) = Ok x <->
  exists sg tl, post = enc_bytes sg ++ tl /\ fits sg /\ accepted C (ct_signature_key c) sp sg /\ x = seal c sg data.
Proof.
  intros Hd Hl x. unfold cert_tail, get_offset, set_offset, put_off. unfold mbind at 1. cbn [r_off].
  unfold mbind at 1. destruct (read_bytes (mkReader data (length sp))) as [[sg|e|] r'] eqn:E.
  - apply parses_read_bytes in E. destruct E as (b & tl & [Hf ->] & Hs & ->).
    rewrite Hd, skipn_app_exact in Hs by reflexivity. unfold mbind at 1. cbn [r_inner].
    assert (R : read_raw_bytes (length sp) (mkReader data 0) = (Ok sp, mkReader data (0 + length sp))).
    { apply parses_read_raw; [exact Hl|]. exists sp, post. auto. }
    unfold mbind at 1. rewrite R. unfold mbind, lift.
    destruct (verify_signature C sg sp (ct_signature_key c)) as [out|e|] eqn:V.
    + cbn [ret fst]. apply verify_iff in V. destruct V as [-> V]. split.
      * intros [= <-]. eauto 6.
      * intros (sg' & tl' & H1 & H2 & H3 & ->). rewrite Hs in H1. apply enc_bytes_inj in H1; [|assumption..].
        destruct H1 as [-> _]. reflexivity.
    + cbn [fst]. split; [discriminate|]. intros (sg' & tl' & H1 & H2 & H3 & ->). rewrite Hs in H1.
      apply enc_bytes_inj in H1; [|assumption..]. destruct H1 as [-> _].
      assert (X := proj2 (verify_iff C sg' sp (ct_signature_key c) sg') (conj eq_refl H3)). congruence.
    + cbn [fst]. split; [discriminate|]. exfalso. eapply verify_not_panic; exact V.
  - cbn [fst]. split; [discriminate|]. intros (sg & tl & H1 & H2 & _).
    assert (X : read_bytes (mkReader data (length sp)) = (Ok sg, mkReader data (length sp + length (enc_bytes sg)))).
    { apply parses_read_bytes. exists (enc_bytes sg), tl. split; [auto|]. split; [|reflexivity].
      rewrite Hd, skipn_app_exact by reflexivity. exact H1. }
    congruence.
  - exfalso. pose proof (nopanic_read_bytes (mkReader data (length sp))) as X. rewrite E in X. auto.
Qed.

Lemma cert_from_bytes_iff C data c :
  cert_from_bytes C data = Ok c <->
  exists sp post, core c sp /\ data = sp ++ enc_bytes (ct_signature c) ++ post /\ fits (ct_signature c)
    /\ accepted C (ct_signature_key c) sp (ct_signature c)
    /\ ct_comment c = None /\ ct_serialized c = data.
Proof.
  rewrite cert_from_bytes_split. unfold run, mbind at 1, reader_new.
  destruct (signed_parser (mkReader data 0)) as [[c0|e|] r'] eqn:E.
  - apply parses_signed in E. destruct E as (sp & post & [Hb Hc] & Hs & ->). cbn [skipn] in Hs.
    rewrite Nat.add_0_l, (tail_eval C data sp post c0 Hs (core_length _ _ Hc)). split.
    + intros (sg & tl & -> & Hf & Ha & ->). exists sp, tl. cbn [seal ct_signature ct_signature_key ct_comment ct_serialized].
      repeat (split; [first [assumption|exact (core_seal _ _ _ _ Hc)]|]). auto.
    + intros (sp' & tl & Hc' & Hd & Hf & Ha & Hcm & Hsd).
      rewrite Hs in Hd. apply (core_prefix c0 c) in Hd; [|assumption..]. destruct Hd as (Es & -> & ->).
      exists (ct_signature c), tl. split; [reflexivity|]. split; [exact Hf|].
      assert (c0 = strip c) as ->.
      { rewrite <- Es. apply bare_strip, Hb. }
      split; [exact Ha|]. symmetry. apply seal_strip; auto.
  - cbn [fst]. split; [discriminate|]. intros (sp & tl & Hc & Hd & _).
    assert (A : signed_parser (mkReader data 0) = (Ok (strip c), mkReader data (0 + length sp))).
    { apply parses_signed. eexists sp, _. split; [split; [repeat split|exact Hc]|]. split; [exact Hd|reflexivity]. }
    congruence.
  - exfalso. pose proof (nopanic_signed (mkReader data 0)) as X. rewrite E in X. auto.
Qed.

Lemma cert_from_bytes_not_panic C data : cert_from_bytes C data <> Panic.
Proof.
  rewrite cert_from_bytes_split. apply nopanic_run. intros r. unfold mbind at 1.
  destruct (signed_parser r) as [[c0|e|] r'] eqn:E; [|cbn; discriminate|].
  2:{ pose proof (nopanic_signed r) as X. rewrite E in X. auto. }
  revert r' E. intros r' _. unfold cert_tail.
  apply (nopanic_bind get_offset); [intros ?; cbn; discriminate|intros n].
  apply nopanic_bind; [apply nopanic_read_bytes|intros sg].
  apply nopanic_bind; [intros ?; cbn; discriminate|intros _].
  apply nopanic_bind; [apply nopanic_read_raw|intros sb].
  apply nopanic_bind; [apply nopanic_lift, verify_not_panic|intros; apply nopanic_ret].
Qed.

(** ** Specification and [core] *)
Lemma core_signed c bs : core c bs -> signed_part c bs.
Proof.
  intros (pb & cb & eb & skb & skpost & Hkt & Hcert & Hnonce & K1 & K2 & K3 & K4 & Hserial & Hid
      & Hpb & Hps & Hva & Hvb & Hcb & Hco & Heb & Hex & Hrs & Hskb & Hsk & Eskb & ->).
  apply read_options_iff in Hco, Hex. destruct Hco as (co & Hco & Eco), Hex as (ex & Hex & Eex).
  destruct Hsk as (S1 & S2 & S3).
  exists (enc_kind (pk_kind (ct_key c))), pb, co, cb, ex, eb, (enc_kind (pk_kind (ct_signature_key c))), skpost.
  rewrite !field_ok_fits, !field_enc, !be64_to_be, be32_to_be.
  split; [apply known_name_ok, Hkt|]. split; [exact Hcert|].
  split; [unfold plain_type_of; rewrite <- K2; apply known_name_ok, K1|]. split; [exact K3|].
  split; [apply key_data_iff; auto|].
  unfold u64_max. split; [lia|]. split; [lia|]. split; [lia|]. split; [apply text_ok_iff, Hid|].
  split; [exact Hnonce|]. split; [exact Hrs|]. split; [apply principals_data_iff, Hps|]. split; [exact Hpb|].
  split; [apply options_data_iff, Hco|]. split; [exact Hcb|]. split; [rewrite Eco; apply map_of_insert_all|].
  split; [apply options_data_iff, Hex|]. split; [exact Heb|]. split; [rewrite Eex; apply map_of_insert_all|].
  split; [apply known_name_ok, S1|]. split; [exact S2|]. split; [apply key_data_iff; auto|].
  subst skb. unfold enc_key in *. rewrite <- app_assoc in *. split; [exact Hskb|reflexivity].
Qed.

Lemma signed_core c bs : signed_part c bs ->
  exists c', core c' bs /\ same_signed_fields c' c
    /\ ct_signature c' = ct_signature c /\ ct_comment c' = ct_comment c /\ ct_serialized c' = ct_serialized c.
Proof.
  intros (kd & pb & co & cb & ex & eb & skd & skpost & Hkt & Hcert & Hpl & K3 & Hkd & Hserial & Hva & Hvb & Hid
      & Hnonce & Hrs & Hps & Hpb & Hco & Hcb & Mco & Hex & Heb & Mex & S1 & S2 & Hskd & Hskb & ->).
  rewrite !field_ok_fits, !field_enc, ?be64_to_be, ?be32_to_be in *.
  unfold plain_type_of in Hpl. apply kt_from_name_ok in Hkt, Hpl, S1.
  apply key_data_iff in Hkd, Hskd. destruct Hkd as [Hkd ->], Hskd as [Hskd ->].
  exists (mkCert (ct_key_type c) (ct_nonce c) (ct_key c) (ct_serial c) (ct_cert_type c) (ct_key_id c)
    (ct_principals c) (ct_valid_after c) (ct_valid_before c) (insert_all co [])
    (insert_all ex []) (ct_reserved c) (ct_signature_key c) (ct_signature c) (ct_comment c) (ct_serialized c)).
  split; [|split; [|auto]].
  - exists pb, cb, eb, (enc_key (ct_signature_key c) ++ skpost), skpost.
    cbn [ct_key_type ct_nonce ct_key ct_serial ct_cert_type ct_key_id ct_principals ct_valid_after ct_valid_before
         ct_critical_options ct_extensions ct_reserved ct_signature_key].
    unfold u64_max in *. unfold enc_key. rewrite <- app_assoc.
    split; [apply Hkt|]. split; [exact Hcert|]. split; [exact Hnonce|]. split; [apply Hpl|]. split; [symmetry; apply Hpl|].
    split; [exact K3|]. split; [exact Hkd|]. split; [lia|]. split; [apply text_ok_iff, Hid|]. split; [exact Hpb|].
    split; [apply principals_data_iff, Hps|]. split; [lia|]. split; [lia|]. split; [exact Hcb|].
    split; [apply read_options_iff; exists co; split; [apply options_data_iff, Hco|reflexivity]|]. split; [exact Heb|].
    split; [apply read_options_iff; exists ex; split; [apply options_data_iff, Hex|reflexivity]|]. split; [exact Hrs|].
    split; [exact Hskb|]. split; [split; [apply S1|split; [exact S2|exact Hskd]]|]. split; reflexivity.
  - unfold same_signed_fields. cbn.
    repeat (split; [first [reflexivity|eapply map_of_same; [apply map_of_insert_all|eassumption]]|]). reflexivity.
Qed.

Lemma same_fields_sym a b : same_signed_fields a b -> same_signed_fields b a.
Proof.
  intros (H1 & H2 & H3 & H4 & H5 & H6 & H7 & H8 & H9 & H10 & H11 & H12 & H13).
  repeat (split; [first [symmetry; assumption|intros k v; symmetry; first [apply H10|apply H11]]|]). symmetry; assumption.
Qed.
Lemma same_fields_trans a b c : same_signed_fields a b -> same_signed_fields b c -> same_signed_fields a c.
Proof.
  intros (H1 & H2 & H3 & H4 & H5 & H6 & H7 & H8 & H9 & H10 & H11 & H12 & H13)
    (G1 & G2 & G3 & G4 & G5 & G6 & G7 & G8 & G9 & G10 & G11 & G12 & G13).
  repeat split; try (etransitivity; eassumption).
  all: try (intros HH; first [apply G10, H10, HH|apply H10, G10, HH|apply G11, H11, HH|apply H11, G11, HH]).
Qed.

Lemma signed_prefix a b ba bb x y : signed_part a ba -> signed_part b bb -> ba ++ x = bb ++ y ->
  same_signed_fields a b /\ ba = bb /\ x = y.
Proof.
  intros Ha Hb E. apply signed_core in Ha, Hb.
  destruct Ha as (a' & Ca & Sa & _), Hb as (b' & Cb & Sb & _).
  destruct (core_prefix _ _ _ _ _ _ Ca Cb E) as (Es & -> & ->). split; [|auto].
  assert (T : same_signed_fields a' b').
  { clear -Es. unfold strip in Es. injection Es. intros E1 E2 E3 E4 E5 E6 E7 E8 E9 E10 E11 E12 E13.
    unfold same_signed_fields. rewrite E1, E2, E3, E4, E5, E6, E7, E8, E9, E10, E11, E12, E13.
    unfold same_map. intuition. }
  apply same_fields_trans with a'; [apply same_fields_sym, Sa|]. apply same_fields_trans with b'; assumption.
Qed.

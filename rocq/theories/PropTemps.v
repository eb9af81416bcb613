(** C126: which copies of a private key stay in memory after reading, writing and signing. *)
From Coq Require Import Lia Permutation.
From Verif Require Import Base BaseFacts Str StrFacts SpecWire SpecText SpecBase64 SpecKeys SpecSshSig SpecSign SpecPrivKey Base64 Base64Facts Reader ReaderFacts
  LocalFacts KeyType KeyTypeFacts PubKeyType Writer WriterFacts WireFacts Crypto PubKey PubKeyFacts Signature SshSigFacts Utils PrivKey PrivKeyFacts PropPrivKey PropSign
  Memory SpecMemory MemoryFacts PropMemory Temps SpecTemps TempsFacts LeftFacts.

(** ** Stages *)
Lemma passes_stages F K text pass body data plain : passes F K text pass body data plain -> stages F K text pass body data plain.
Proof.
  intros (ls & rest & j & ci & kd & op & pub & se & tl & Hl & Hn & -> & Hb & Hh & -> & Hu). apply lines_iff in Hl.
  unfold stages. rewrite Hl. cbn [first_line List.tl]. split; [reflexivity|].
  split; [apply armor_body_iff; exists ls, rest; auto|]. split; [apply b64_decode_iff; exists j; exact Hb|].
  apply header_parts in Hh. destruct Hh as (H1 & H2 & H3 & H4 & H5 & H6 & pk & H7). apply decrypt_iff in Hu.
  exists ci, kd, op, pk, se. split; [|exact Hu]. rewrite key_file_enc. apply head_run; assumption.
Qed.
Lemma accepted_passes F K text pass k : sk_from_string F K text pass = Ok k ->
  exists body data plain padding, passes F K text pass body data plain /\ section_of F k padding plain.
Proof.
  intros H. apply C55_accepted_files in H. destruct H as (data & (ls & rest & j & Hl & Hn & Hb) & H).
  destruct H as (ci & kd & op & post & pub & se & plain & pad & tl & H1 & H2 & H3 & H4 & H5 & H6 & H7 & H8 & H9 & H10 & H11 & E).
  exists (concat ls), data, plain, pad. split; [|exact H11].
  exists ls, rest, j, ci, kd, op, pub, se, tl. split; [exact Hl|]. split; [exact Hn|]. split; [reflexivity|]. split; [exact Hb|].
  split; [|auto]. unfold header_ok. do 5 (split; [assumption|]). split; [|auto]. exists (sk_pub k), post. split; [|exact H6].
  destruct H11 as (_ & b & (kt & b' & K1 & _ & _ & K2 & _) & _). rewrite K2. exact K1.
Qed.

(** ** One operation *)
Local Lemma ok_inj {A} (x y : A) : Ok x = Ok y -> x = y.
Proof. congruence. Qed.
Lemma good_grow vars h values gone l h' : good (vars, h) values gone -> change h [] l h' -> good (vars, h') values (gone ++ l).
Proof.
  intros (O & V & P) (CO & CP & CK & _). cbn [fst snd] in *. split; [|split]; cbn [fst snd].
  - apply CO, O.
  - rewrite <- V. apply load_all. intros a I. apply CK, live_lt, O, I.
  - rewrite CP, P, filter_app. apply Permutation_app_comm.
Qed.
Lemma good_add vars h values gone x y l h' : good (vars, h) values gone -> got h x y l h' ->
  good (add_key vars (x, h')) (match y with Ok k => values ++ [Some k] | _ => values end) (gone ++ l).
Proof.
  intros G. unfold got, add_key. destruct y as [k|e|], x as [m|e'|]; try contradiction.
  - intros [(CO & CP & CK & _) L]. destruct G as (O & V & P). cbn [fst snd] in *. split; [|split]; cbn [fst snd].
    + rewrite owned_app. cbn [owned flat_map]. rewrite app_nil_r. eapply owns_perm; [apply Permutation_app_comm|]. apply CO, O.
    + rewrite map_app. cbn [map option_map]. rewrite L. f_equal. rewrite <- V. apply load_all. intros a I. apply CK, live_lt, O, I.
    + rewrite CP, P, filter_app. apply Permutation_app_comm.
  - intros [_ C]. apply (good_grow _ h); assumption.
  - intros C. apply (good_grow _ h); assumption.
Qed.
Lemma good_perm s values l l' : Permutation l l' -> good s values l -> good s values l'.
Proof.
  intros H (O & V & P). split; [exact O|]. split; [exact V|]. rewrite P. clear -H.
  induction H as [|x l l' H IH|x y l|l1 l2 l3 _ IH1 _ IH2]; cbn; [reflexivity|..].
  - destruct (negb (zeros x)); [apply perm_skip|]; exact IH.
  - destruct (negb (zeros x)), (negb (zeros y)); try reflexivity. apply perm_swap.
  - etransitivity; eassumption.
Qed.
Lemma ok_or_not {A} (x : res A) : (exists k, x = Ok k) \/ forall k, x <> Ok k.
Proof. destruct x as [k|e|]; [left; eauto|right; discriminate..]. Qed.
Lemma given_list pass : given pass = opt_list pass.
Proof. destruct pass; reflexivity. Qed.
Lemma collected_lines e rest : forall ls acc, ~ In e ls -> rest = [] \/ (exists r, rest = e :: r) -> collected e (ls ++ rest) acc = acc ++ concat ls.
Proof.
  induction ls as [|p ls IH]; intros acc N H; cbn [List.app collected concat].
  - rewrite app_nil_r. destruct H as [-> |[r ->]]; cbn [collected]; [|rewrite bytes_eqb_refl]; reflexivity.
  - destruct (bytes_eqb p e) eqn:E; [apply bytes_eqb_eq in E; subst p; destruct N; left; reflexivity|].
    rewrite IH; [rewrite <- app_assoc; reflexivity|intros I; apply N; right; exact I|exact H].
Qed.
Lemma joined_collected text body : joined text body -> first_line (lines text) = key_begin /\ collected key_end (tl (lines text)) [] = body.
Proof.
  intros (ls & rest & Hl & Hn & -> & Hr). apply lines_iff in Hl. rewrite Hl. cbn [first_line List.tl]. split; [reflexivity|].
  apply (collected_lines key_end rest ls [] Hn Hr).
Qed.
(** The leftovers of a read, from those of [string_got]. *)
Lemma read_leaves F K text pass l :
  (forall p, pass = Some p -> In p l) -> Permutation l (opt_list pass ++ left_of_text F K text pass) -> early text l ->
  (forall body data plain, stages F K text pass body data plain -> exists l',
     Permutation l (opt_list pass ++ [body; data; plain] ++ l') /\ (forall k, sk_from_string F K text pass = Ok k -> l' = [])) ->
  (exists k body data plain, sk_from_string F K text pass = Ok k /\ passes F K text pass body data plain
     /\ Permutation l (given pass ++ [body; data; plain]))
  \/ exists l', Permutation l l' /\ failed_text F K text pass l'.
Proof.
  intros Hp Hx He Hs. destruct (ok_or_not (sk_from_string F K text pass)) as [[k E]|E].
  - left. destruct (accepted_passes F K text pass k E) as (body & data & plain & pad & W & _).
    exists k, body, data, plain. split; [exact E|]. split; [exact W|].
    destruct (Hs _ _ _ (passes_stages _ _ _ _ _ _ _ W)) as (l' & P & H). rewrite (H k E), app_nil_r in P. rewrite given_list. exact P.
  - right. exists (given pass ++ left_of_text F K text pass). rewrite given_list at 1. split; [exact Hx|]. split; cycle 1.
    { eexists. split; [apply left_of_text_spec|reflexivity]. }
    assert (Ix : forall b, In b l -> In b (given pass ++ left_of_text F K text pass)) by (rewrite given_list; intros b; apply Permutation_in, Hx).
    split; [exact E|]. split.
    + intros p I. apply Ix. destruct pass as [q|]; [|destruct I]. destruct I as [<-|[]]. apply Hp. reflexivity.
    + split; [|split].
      * intros body J. apply joined_collected in J. destruct J as [J <-]. apply Ix, (He J).
      * intros data (ls & rest & j & Hl & Hn & Hb). apply lines_iff in Hl. unfold early in He. rewrite Hl in He. cbn [first_line List.tl] in He.
        destruct (He eq_refl) as [_ Hd]. apply Ix, (Hd (concat ls)); [apply armor_body_iff; exists ls, rest; auto|apply b64_decode_iff; exists j; exact Hb].
      * intros body data plain W. destruct (Hs _ _ _ (passes_stages _ _ _ _ _ _ _ W)) as (l' & P & _). apply Ix. rewrite P.
        apply in_or_app. right. apply in_or_app. left. cbn. auto.
Qed.
Lemma encode_section k data : sk_encode k = Ok data -> exists pub section, write_section k = Ok section /\ write_pub_key (sk_pub k) writer_new = Ok (field pub)
  /\ data = key_file (s2b "none") (s2b "none") [] pub section.
Proof.
  intros H. unfold sk_encode in H. cbn zeta in H. apply bind_ok in H. destruct H as (s & Hs & H).
  apply bind_ok in H. destruct H as (w & Hw & H). apply ok_inj in H.
  unfold write_pub_key in Hs. apply bind_ok in Hs. destruct Hs as (pub & Hp & Hs). apply ok_inj in Hs.
  exists pub, w. split; [exact Hw|]. split; [unfold write_pub_key; rewrite Hp; cbn [bind]; rewrite write_bytes_field; reflexivity|].
  subst data s. unfold write_string, write_u32, write_cstring, writer_new. rewrite !write_bytes_field.
  unfold key_file. cbn [app]. rewrite <- !app_assoc, be32_to_be. reflexivity.
Qed.

Lemma no_string rest : (forall c, run read_string rest <> Ok c) <-> ~ exists c tl, utf8_text c /\ field_ok c /\ rest = field c ++ tl.
Proof.
  split.
  - intros H (c & tl & H1 & H2 & ->). apply (H c). rewrite field_enc.
    assert (R : run (mbind read_string (fun x => ret x)) (enc_bytes c ++ tl) = Ok c) by (rewrite str_step; [reflexivity|apply str_ok_iff; auto|local_tac]).
    unfold run, mbind, ret in *. destruct (read_string (reader_new (enc_bytes c ++ tl))) as [[x|?|] s]; exact R.
  - intros H c E. apply H. assert (R : run (mbind read_string (fun x => ret x)) rest = Ok c).
    { unfold run, mbind, ret in *. destruct (read_string (reader_new rest)) as [[x|?|] s]; exact E. }
    apply inv_string in R; [|local_tac]. destruct R as (c' & d & H1 & H2 & -> & R). cbn in R. injection R as ->.
    exists c, d. destruct (proj1 (str_ok_iff c) (conj H1 H2)) as [U Fo]. rewrite field_enc. auto.
Qed.
Lemma cut_iff F k data : cut_key F k data <-> exists rest, known (sk_type k) /\ key_kind (sk_type k)
  /\ sec_ok F (sk_type k) (pk_kind (sk_pub k)) (sk_kind k) /\ (forall c, run read_string rest <> Ok c)
  /\ data = enc_bytes (kt_name (sk_type k)) ++ enc_sec (pk_kind (sk_pub k)) (sk_kind k) ++ rest.
Proof.
  unfold cut_key. split.
  - intros (b & rest & H1 & H2 & H3 & H4 & H5). apply secret_data_iff in H3. destruct H3 as [H3 ->]. pose proof (proj2 (no_string rest) H5) as H6.
    apply kt_from_name_ok in H1. rewrite field_enc in H4. exists rest. tauto.
  - intros (rest & H1 & H2 & H3 & H4 & ->). exists (enc_sec (pk_kind (sk_pub k)) (sk_kind k)), rest. rewrite secret_data_iff, field_enc.
    pose proof (proj1 (no_string rest) H4) as H5. apply known_name_ok in H1. auto 6.
Qed.
Lemma secrets_parts k : secrets k = parts (sk_kind k).
Proof. unfold secrets. destruct (sk_kind k) as [r|c b|w|b|w]; reflexivity. Qed.
Lemma cut_rejected F k data : cut_key F k data -> forall k', sk_from_bytes F data <> Ok k'.
Proof.
  intros C k' E. apply cut_iff in C. destruct C as (rest & H1 & H2 & H3 & H4 & ->).
  destruct (cut_reads F _ _ _ rest H1 H2 H3 H4) as (r0 & s & e & s' & D1 & D2 & D3).
  unfold sk_from_bytes, run in E. rewrite read_private_key_body in E. unfold mbind, lift in E.
  rewrite D1, (known_name_ok _ H1), D2, D3 in E. discriminate.
Qed.

Lemma use_good F K o s values gone : good s values gone ->
  exists l, leaves F K values o l /\ good (use_step F K o s) (value_use_step F K o values) (gone ++ l).
Proof.
  destruct s as [vars h]. intros G. assert (Ow : owned_heap h) by (eexists; apply G).
  assert (N : forall i, nth_error values i = option_map (option_map (load h)) (nth_error vars i)).
  { intros i. destruct G as (_ & V & _). cbn [fst snd] in V. rewrite <- V. apply nth_values. }
  destruct o as [o|data|text pass|text pass|i|i]; cbn [use_step value_use_step].
  - exists (replaced_now o values). split; [constructor|]. apply (step_good o (vars, h)), G.
  - pose proof (bytes_got F data h) as T. destruct (mem_from_bytes F data h) as [x h']. cbn [fst snd] in *.
    pose proof (good_add _ _ _ _ _ _ _ _ G T) as G'. destruct (ok_or_not (sk_from_bytes F data)) as [[k Ek]|Ek].
    + exists []. split; [eapply L_bytes, Ek|]. unfold key_left in G'. unfold sk_from_bytes, run in *. rewrite Ek in G'. rewrite Ek. exact G'.
    + exists (key_left F (reader_new data)). split; [apply L_bytes_failed; [exact Ek| |]|exact G'].
      * intros k C. apply cut_iff in C. destruct C as (rest & H1 & H2 & H3 & H4 & Ed).
        rewrite (cut_left _ _ _ _ _ rest H1 H2 H3 H4 Ed). symmetry. apply secrets_parts.
      * apply key_left_broken. rewrite bare_key_iff. intros [k X]. exact (Ek k X).
  - destruct (string_got F K text pass h Ow) as (l & T & Hp & Hx & He & Hs). destruct (mem_from_string F K text pass h) as [x h']. cbn [fst snd] in *.
    pose proof (good_add _ _ _ _ _ _ _ _ G T) as G'.
    destruct (read_leaves F K text pass l Hp Hx He Hs) as [(k & body & data & plain & E & W & P)|(l' & P & A)].
    + exists (given pass ++ [body; data; plain]). split; [eapply L_string; eassumption|].
      eapply good_perm; [|exact G']. apply Permutation_app_head, P.
    + exists l'. split; [apply L_string_failed, A|]. eapply good_perm; [|exact G']. apply Permutation_app_head, P.
  - destruct (path_got F K text pass h Ow) as (l & T & Hp & Hx & He & Hs). destruct (mem_from_path F K text pass h) as [x h']. cbn [fst snd] in *.
    pose proof (good_add _ _ _ _ _ _ _ _ G T) as G'.
    destruct (read_leaves F K text pass l Hp Hx He Hs) as [(k & body & data & plain & E & W & P)|(l' & P & A)].
    + exists (text :: given pass ++ [body; data; plain]). split; [eapply L_path; eassumption|].
      eapply good_perm; [|exact G']. apply Permutation_app_head, perm_skip, P.
    + exists (text :: l'). split; [apply L_path_failed, A|]. eapply good_perm; [|exact G']. apply Permutation_app_head, perm_skip, P.
  - specialize (N i). destruct (nth_error vars i) as [[k|]|] eqn:Ei; cbn [option_map] in N.
    2,3: exists []; rewrite app_nil_r; split; [apply L_write_none; intros k t V; unfold var in V; congruence|exact G].
    pose proof (write_change k h) as C. destruct (sk_encode (load h k)) as [data|e|] eqn:Ee.
    2,3: exists []; split; [apply L_write_none; intros k' t V X; unfold var in V; rewrite N in V; injection V as <-; unfold sk_write in X; rewrite Ee in X; discriminate|];
      apply (good_grow _ h); assumption.
    destruct (encode_section _ _ Ee) as (pub & se & Es & Ep & Ed). rewrite Es in C.
    exists [se; data; b64_encode data; split_lines 0 (b64_encode data)]. split; [|apply (good_grow _ h); assumption].
    eapply (L_write F K values i (load h k)); [exact N|unfold sk_write; rewrite Ee; reflexivity|reflexivity|exact Ee|apply b64_encode_text|exact Ep|exact Ed].
  - specialize (N i). destruct (nth_error vars i) as [[k|]|] eqn:Ei; cbn [option_map] in N.
    2,3: exists []; rewrite app_nil_r; split; [apply L_sign_none; intros k r d V; unfold var in V; congruence|exact G].
    pose proof (sign_change F k h) as C.
    assert (Z : (exists r der, sk_kind (load h k) = SkRsa r /\ f_rsa F = true /\ rsa_der r = Ok der)
       \/ (forall r der, sk_kind (load h k) = SkRsa r -> f_rsa F = true -> rsa_der r <> Ok der)).
    { destruct (sk_kind (load h k)) as [r|c b|w|b|w]; try (right; discriminate). destruct (f_rsa F); [|right; discriminate].
      destruct (rsa_der r) as [der|e|] eqn:Er; [left; eauto|right; intros r' d X; injection X as <-; congruence..]. }
    destruct Z as [(r & der & E1 & E2 & E3)|X].
    + rewrite E1, E2, E3 in C. exists [der]. split; [eapply L_sign; eassumption|apply (good_grow _ h); assumption].
    + exists []. split; [apply L_sign_none; intros k' r d V; unfold var in V; rewrite N in V; injection V as <-; apply X|].
      apply (good_grow _ h); [exact G|]. revert C X. destruct (sk_kind (load h k)) as [r|c b|w|b|w]; intros C X; try exact C.
      destruct (f_rsa F); [|exact C]. destruct (rsa_der r) as [der|e|] eqn:Er; [|exact C..]. exfalso. exact (X r der eq_refl eq_refl Er).
Qed.

(** ** Programs *)
Lemma runs_good F K : forall ops s values gone, good s values gone ->
  exists l, leaves_all F K ops values l
    /\ good (fold_left (fun s o => use_step F K o s) ops s) (fold_left (fun v o => value_use_step F K o v) ops values) (gone ++ l).
Proof.
  induction ops as [|o ops IH]; intros s values gone G; cbn [fold_left].
  - exists []. rewrite app_nil_r. split; [constructor|exact G].
  - destruct (use_good F K o s values gone G) as (l & L & G1). destruct (IH _ _ _ G1) as (l' & L' & G2).
    exists (l ++ l'). split; [econstructor; eassumption|]. rewrite app_assoc. exact G2.
Qed.
Lemma use_run_good F K ops : exists l, leaves_all F K ops [] l /\ good (use_run F K ops) (value_use_run F K ops) l.
Proof.
  apply (runs_good F K ops ([], []) [] []). unfold good. cbn. split; [|split]; [|reflexivity|constructor].
  split; [constructor|]. intros a. split; [intros []|]. intros [c E]. destruct a; discriminate.
Qed.

(** Reading, writing and signing change no key, whatever else is done: each holds its value. *)
Theorem C126_values F K ops :
  map (option_map (load (snd (use_run F K ops)))) (fst (use_run F K ops)) = value_use_run F K ops.
Proof. destruct (use_run_good F K ops) as (l & _ & _ & V & _). exact V. Qed.
Print Assumptions C126_values.

(** Memory that was given back holds exactly what the operations leave, each once for each time. *)
Theorem C126_leftovers F K ops : exists l,
  leaves_all F K ops [] l /\ Permutation (leftovers (snd (use_run F K ops))) (filter (fun b => negb (zeros b)) l).
Proof. destruct (use_run_good F K ops) as (l & L & _ & _ & P). eauto. Qed.
Print Assumptions C126_leftovers.

(** Nothing leaks: every buffer is given back when the last key is dropped. *)
Theorem C126_given_back F K ops :
  Forall (eq None) (value_use_run F K ops) -> Forall (fun b => bl_live b = false) (snd (use_run F K ops)).
Proof.
  intros D. destruct (use_run_good F K ops) as (l & _ & (_ & O) & V & _).
  assert (E : owned (fst (use_run F K ops)) = []).
  { rewrite <- V in D. revert D. generalize (fst (use_run F K ops)). intros v D.
    induction v as [|[k|] v IH]; [reflexivity|inversion D; discriminate|]. cbn. apply IH. now inversion D. }
  rewrite E in O. apply Forall_forall. intros [lv c] I. cbn. destruct lv; [|reflexivity].
  destruct (In_nth_error _ _ I) as [a Ea]. exfalso. apply (O a). now exists c.
Qed.
Print Assumptions C126_given_back.

Lemma leaves_at F K o after : forall before vars l, leaves_all F K (before ++ o :: after) vars l ->
  exists l0, leaves F K (fold_left (fun v o => value_use_step F K o v) before vars) o l0 /\ incl l0 l.
Proof.
  induction before as [|b before IH]; intros vars l H; cbn [List.app fold_left] in *; inversion H as [|o' ops v l1 l2 H1 H2]; subst.
  - exists l1. split; [exact H1|]. apply incl_appl, incl_refl.
  - destruct (IH _ _ H2) as (l0 & L & I). exists l0. split; [exact L|]. apply incl_appr, I.
Qed.
(** What one operation of a program leaves stays to its end. *)
Lemma left_at F K before o after : exists l, leaves F K (value_use_run F K before) o l
  /\ forall b, In b l -> zeros b = false -> In b (leftovers (snd (use_run F K (before ++ o :: after)))).
Proof.
  destruct (C126_leftovers F K (before ++ o :: after)) as (l & L & P). destruct (leaves_at _ _ _ _ _ _ _ L) as (l0 & L0 & I).
  exists l0. split; [exact L0|]. intros b Ib Z. rewrite P. apply filter_In. split; [apply I, Ib|]. rewrite Z. reflexivity.
Qed.

Lemma zeros_app a b : zeros (a ++ b) = zeros a && zeros b.
Proof. apply forallb_app. Qed.
Lemma zeros_field b : zeros b = false -> zeros (field b) = false.
Proof. intros H. unfold field. rewrite zeros_app, H. apply andb_false_r. Qed.
Lemma name_not_zero n kt : kt_from_name n = Ok kt -> zeros n = false.
Proof. intros H. apply kt_from_name_ok in H. destruct H as [H ->]. repeat (destruct H as [<-|H]; [reflexivity|]). destruct H. Qed.
Lemma priv_data_not_zero F k b : priv_data F k b -> zeros b = false.
Proof. intros (kt & b' & H & _ & _ & _ & _ & _ & _ & _ & ->). rewrite zeros_app, zeros_field; [reflexivity|]. exact (name_not_zero _ _ H). Qed.
Lemma section_not_zero F k pad b : section_of F k pad b -> zeros b = false.
Proof. intros (_ & b' & H & ->). rewrite !zeros_app, (priv_data_not_zero _ _ _ H). rewrite !andb_false_r. reflexivity. Qed.
Lemma key_file_not_zero ci kd op pub se : zeros (key_file ci kd op pub se) = false.
Proof. reflexivity. Qed.
Lemma base64_not_zero b t : base64_text b t -> b <> [] -> forall t' j, t = t' ++ repeat x3d j -> zeros t' = false.
Proof.
  intros H Hb t' j E. destruct t' as [|x t'].
  - exfalso. destruct H as (idx & np & E1 & F1 & E2 & _). destruct idx as [|i idx].
    + cbn in E2. destruct b as [|y b]; [congruence|]. apply (f_equal (@length _)) in E2. rewrite app_length in E2.
      unfold bitstring in E2. cbn [map concat] in E2. rewrite app_length in E2. cbn in E2. lia.
    + rewrite E1 in E. cbn [List.app map] in E. destruct j as [|j]; [discriminate|]. injection E as E _.
      apply Forall_inv in F1. clear -E F1.
      do 64 (destruct i as [|i]; [discriminate|]). lia.
  - destruct H as (idx & np & E1 & F1 & _). destruct idx as [|i idx].
    + cbn in E1. rewrite E1 in E. destruct np as [|np]; [discriminate|]. injection E as <- _. reflexivity.
    + rewrite E1 in E. cbn [List.app map] in E. injection E as E _. apply Forall_inv in F1. subst x. clear -F1.
      change (zeros ([nth i alphabet x00] ++ t') = false). rewrite zeros_app.
      enough (zeros [nth i alphabet x00] = false) as -> by reflexivity.
      do 64 (destruct i as [|i]; [reflexivity|]). lia.
Qed.
Lemma text_not_zero text l ls : lines_of text (l :: ls) -> zeros l = false -> zeros text = false.
Proof.
  intros H. remember (l :: ls) as L. destruct H as [|l' _ _|l' rest ls' _ _|l' rest ls' _ _ _]; [discriminate|..]; injection HeqL as <- _; intros Z;
    rewrite ?zeros_app, Z; reflexivity.
Qed.
Lemma passes_not_zero F K text pass body data plain : passes F K text pass body data plain ->
  zeros text = false /\ zeros body = false /\ zeros data = false.
Proof.
  intros (ls & rest & j & ci & kd & op & pub & se & tl & Hl & _ & -> & Hb & _ & -> & _).
  split; [exact (text_not_zero _ _ _ Hl eq_refl)|]. split; [|rewrite zeros_app, key_file_not_zero; reflexivity].
  eapply base64_not_zero; [exact Hb|discriminate|reflexivity].
Qed.

(** ** Reading *)
(** The stages of an accepted text are one each. *)
Lemma passes_fun F K text pass b1 d1 p1 b2 d2 p2 : passes F K text pass b1 d1 p1 -> passes F K text pass b2 d2 p2 -> b1 = b2 /\ d1 = d2 /\ p1 = p2.
Proof.
  intros H1 H2. apply passes_stages in H1, H2. destruct H1 as (_ & A1 & B1 & c1 & k1 & o1 & u1 & s1 & D1 & E1), H2 as (_ & A2 & B2 & c2 & k2 & o2 & u2 & s2 & D2 & E2).
  assert (b1 = b2) by congruence. subst b2. assert (d1 = d2) by congruence. subst d2. rewrite D1 in D2. injection D2 as -> -> -> -> ->.
  split; [reflexivity|]. split; [reflexivity|]. congruence.
Qed.
Lemma passes_joined F K text pass body data plain : passes F K text pass body data plain -> joined text body /\ key_text data text.
Proof.
  intros (ls & rest & j & ci & kd & op & pub & se & tl & Hl & Hn & -> & Hb & _). split.
  - exists ls, (key_end_line :: rest). eauto 7.
  - exists ls, rest, j. auto.
Qed.
Lemma joined_fun text b1 b2 : joined text b1 -> joined text b2 -> b1 = b2.
Proof. intros H1 H2. apply joined_collected in H1, H2. destruct H1 as [_ <-], H2 as [_ <-]. reflexivity. Qed.
Lemma key_text_fun d1 d2 text : key_text d1 text -> key_text d2 text -> d1 = d2.
Proof.
  intros (l1 & r1 & j1 & H1 & N1 & B1) (l2 & r2 & j2 & H2 & N2 & B2).
  assert (E : concat l1 = concat l2).
  { apply (joined_fun text); [exists l1, (key_end_line :: r1)|exists l2, (key_end_line :: r2)]; eauto 7. }
  rewrite E in B1. assert (D1 : b64_decode (concat l2) = Some d1) by (apply b64_decode_iff; eauto).
  assert (D2 : b64_decode (concat l2) = Some d2) by (apply b64_decode_iff; eauto). congruence.
Qed.
Lemma text_left_fun F K text pass l l' : text_left F K text pass l -> text_left F K text pass l' -> l = l'.
Proof.
  assert (T : forall l, text_left F K text pass l ->
    (forall body, ~ joined text body) /\ l = []
    \/ (exists body, joined text body /\ ((forall data, ~ key_text data text) /\ l = [body]
       \/ exists data, key_text data text /\ ((forall x, run head data <> Ok x) /\ l = [body; data]
         \/ exists ci kd op pub se, run head data = Ok (ci, kd, op, pub, se)
              /\ ((forall plain, decrypt F K ci kd op pass se <> Ok plain) /\ l = [body; data; se]
                \/ exists plain l0, decrypt F K ci kd op pass se = Ok plain /\ section_left F plain l0 /\ l = [body; data; plain] ++ l0))))).
  { intros x [N|body J N|body data J D N|body data ci kd op pub se tl J D H E N|body data plain l0 W S]; [left; auto|right..].
    - exists body. split; [exact J|]. left. auto.
    - exists body. split; [exact J|]. right. exists data. split; [exact D|]. left. split; [|reflexivity].
      intros ((((ci & kd) & op) & pub) & se) X. apply head_inv in X. destruct X as (pkb & tl & H & E). exact (N _ _ _ _ _ _ H E).
    - exists body. split; [exact J|]. right. exists data. split; [exact D|]. right. destruct (head_header _ _ _ _ _ _ _ H E) as [pk X].
      exists ci, kd, op, pk, se. split; [exact X|]. left. split; [|reflexivity]. intros plain U. apply decrypt_iff in U. exact (N _ U).
    - destruct (passes_joined _ _ _ _ _ _ _ W) as [J D]. exists body. split; [exact J|]. right. exists data. split; [exact D|]. right.
      apply passes_stages in W. destruct W as (_ & _ & _ & ci & kd & op & pub & se & X & Y). exists ci, kd, op, pub, se. split; [exact X|].
      right. exists plain, l0. auto. }
  intros H H'. apply T in H, H'. destruct H as [[N ->]|(body & J & H)], H' as [[N' ->]|(body' & J' & H')];
    [reflexivity|destruct (N _ J')|destruct (N' _ J)|]. rewrite <- (joined_fun _ _ _ J J') in H'. clear J'.
  destruct H as [[N ->]|(data & D & H)], H' as [[N' ->]|(data' & D' & H')]; [reflexivity|destruct (N _ D')|destruct (N' _ D)|].
  rewrite <- (key_text_fun _ _ _ D D') in H'. clear D'.
  destruct H as [[N ->]|(ci & kd & op & pub & se & X & H)], H' as [[N' ->]|(ci' & kd' & op' & pub' & se' & X' & H')];
    [reflexivity|destruct (N _ X')|destruct (N' _ X)|]. rewrite X in X'. injection X' as <- <- <- <- <-.
  destruct H as [[N ->]|(plain & l0 & U & S & ->)], H' as [[N' ->]|(plain' & l0' & U' & S' & ->)]; [reflexivity|destruct (N _ U')|destruct (N' _ U)|].
  rewrite U in U'. injection U' as <-. rewrite (section_left_fun _ _ _ _ S S'). reflexivity.
Qed.
Lemma leaves_fun F K vars o l l' : leaves F K vars o l -> leaves F K vars o l' -> l = l'.
Proof.
  intros H H'.
  destruct H as [o|data k E|data l N C B|text pass k body data plain E W|text pass l A|text pass k body data plain E W|text pass l A
    |i k text data pub section code split V W T E B P D|i N|i k r der V Kd Fr E|i N];
  inversion H' as [o'|data' k' E'|data' l0' N' C' B'|text' pass' k' body' data' plain' E' W'|text' pass' l0' A'|text' pass' k' body' data' plain' E' W'|text' pass' l0' A'
    |i' k' text' data' pub' section' code' split' V' W' T' E' B' P' D'|i' N'|i' k' r' der' V' Kd' Fr' E'|i' N']; subst; try reflexivity.
  - destruct (N' _ E).
  - destruct (N _ E').
  - eapply broken_fun; eassumption.
  - destruct (passes_fun _ _ _ _ _ _ _ _ _ _ W W') as (-> & -> & ->). reflexivity.
  - destruct A' as [[N' _] _]. destruct (N' _ E).
  - destruct A as [[N _] _]. destruct (N _ E').
  - destruct A as [_ (x & A & ->)], A' as [_ (x' & A' & ->)]. rewrite (text_left_fun _ _ _ _ _ _ A A'). reflexivity.
  - destruct (passes_fun _ _ _ _ _ _ _ _ _ _ W W') as (-> & -> & ->). reflexivity.
  - destruct A' as [[N' _] _]. destruct (N' _ E).
  - destruct A as [[N _] _]. destruct (N _ E').
  - destruct A as [_ (x & A & ->)], A' as [_ (x' & A' & ->)]. rewrite (text_left_fun _ _ _ _ _ _ A A'). reflexivity.
  - unfold var in V, V'. rewrite V in V'. injection V' as <-. rewrite W in W'. apply ok_inj in W'. rewrite P in P'. apply ok_inj in P'.
    rewrite E in E'. apply ok_inj in E'. rewrite E' in *. rewrite (base64_text_unique _ _ _ B B').
    assert (Es : section = section').
    { unfold key_file in E'. rewrite P' in E'. do 7 apply app_inv_head in E'. unfold field in E'. apply app_inj_length in E'; [apply E'|reflexivity]. }
    subst section'. f_equal. f_equal. f_equal. f_equal. do 2 apply app_inv_head in W'. apply app_inv_tail in W'. exact W'.
  - destruct (N' _ _ V W).
  - destruct (N _ _ V' W').
  - unfold var in V, V'. rewrite V in V'. injection V' as <-. congruence.
  - destruct (N' _ _ _ V Kd Fr E).
  - destruct (N _ _ _ V' Kd' Fr' E').
Qed.
Lemma leaves_all_fun F K ops : forall vars l l', leaves_all F K ops vars l -> leaves_all F K ops vars l' -> l = l'.
Proof.
  induction ops as [|o ops IH]; intros vars l l' H H'; inversion H; inversion H'; subst; [reflexivity|]. f_equal; [eapply leaves_fun; eassumption|eapply IH; eassumption].
Qed.
(** There is only one such list, so these copies and no others are in memory that was given back. *)
Theorem C126_exactly F K ops l : leaves_all F K ops [] l ->
  Permutation (leftovers (snd (use_run F K ops))) (filter (fun b => negb (zeros b)) l).
Proof. intros H. destruct (C126_leftovers F K ops) as (l' & H' & P). rewrite (leaves_all_fun _ _ _ _ _ _ H H'). exact P. Qed.
Print Assumptions C126_exactly.

(** A read leaves each stage that it reached, whether it succeeds or not: the lines put together even without
    an END line, the decoded file, the readable section whatever is wrong with it; and the passphrase in
    any case. *)
Theorem C126_stages_stay F K text pass before o after : o = UFromString text pass \/ o = UFromPath text pass ->
  let left := leftovers (snd (use_run F K (before ++ o :: after))) in
  (forall body, joined text body -> zeros body = false -> In body left)
  /\ (forall data, key_text data text -> zeros data = false -> In data left)
  /\ (forall body data plain, passes F K text pass body data plain -> zeros plain = false -> In plain left)
  /\ (forall p, pass = Some p -> zeros p = false -> In p left)
  /\ (o = UFromPath text pass -> zeros text = false -> In text left).
Proof.
  intros Ho left. destruct (left_at F K before o after) as (l & L & H). fold left in H.
  assert (X : exists l', incl l' l /\ incl (given pass) l' /\ (forall body, joined text body -> In body l') /\ (forall data, key_text data text -> In data l')
    /\ (forall body data plain, passes F K text pass body data plain -> In plain l') /\ (o = UFromPath text pass -> In text l)).
  { assert (Y : forall body data plain, passes F K text pass body data plain -> let l' := given pass ++ [body; data; plain] in
       incl (given pass) l' /\ (forall body, joined text body -> In body l') /\ (forall data, key_text data text -> In data l')
       /\ (forall body data plain, passes F K text pass body data plain -> In plain l')).
    { intros body data plain W l'. destruct (passes_joined _ _ _ _ _ _ _ W) as [W1 W2]. split; [apply incl_appl, incl_refl|].
      split; [intros b J; rewrite (joined_fun _ _ _ J W1); apply in_or_app; right; cbn; auto|].
      split; [intros d J; rewrite (key_text_fun _ _ _ J W2); apply in_or_app; right; cbn; auto|].
      intros b d p W'. destruct (passes_fun _ _ _ _ _ _ _ _ _ _ W W') as (_ & _ & <-). apply in_or_app. right. cbn. auto. }
    destruct Ho as [-> | ->]; inversion L as [| | |t p k b d pl E W|t p l' A|t p k b d pl E W|t p l' A| | | |]; subst.
    - exists (given pass ++ [b; d; pl]). split; [apply incl_refl|]. destruct (Y _ _ _ W) as (Y1 & Y2 & Y3 & Y4). repeat (split; [assumption|]). discriminate.
    - exists l. split; [apply incl_refl|]. destruct A as ((_ & A1 & A2 & A3 & A4) & _). repeat (split; [assumption|]). discriminate.
    - exists (given pass ++ [b; d; pl]). split; [apply incl_tl, incl_refl|]. destruct (Y _ _ _ W) as (Y1 & Y2 & Y3 & Y4). repeat (split; [assumption|]). intros _. left. reflexivity.
    - exists l'. split; [apply incl_tl, incl_refl|]. destruct A as ((_ & A1 & A2 & A3 & A4) & _). repeat (split; [assumption|]). intros _. left. reflexivity. }
  destruct X as (l' & X0 & X1 & X2 & X3 & X4 & X5). split; [|split; [|split; [|split]]].
  - intros b J Z. apply H; [apply X0, X2, J|exact Z].
  - intros d J Z. apply H; [apply X0, X3, J|exact Z].
  - intros b d p W Z. apply H; [apply X0, (X4 _ _ _ W)|exact Z].
  - intros p -> Z. apply H; [|exact Z]. apply X0, X1. left. reflexivity.
  - intros E Z. apply H; [|exact Z]. exact (X5 E).
Qed.
Print Assumptions C126_stages_stay.

(** A key that was read stays in memory for good: its readable section (from which [from_bytes] makes
    the key without a passphrase), the file, its base64 text and the passphrase, whatever is done
    afterwards, dropping all keys included. Reading by path leaves the text too. *)
Theorem C126_read_stays F K text pass k : sk_from_string F K text pass = Ok k ->
  exists body data plain, passes F K text pass body data plain
    /\ sk_from_bytes F (skipn 8 plain) = Ok (mkPrivKey (sk_type k) (sk_kind k) (sk_pub k) 0 (sk_comment k))
    /\ forall before o after, o = UFromString text pass \/ o = UFromPath text pass ->
       let left := leftovers (snd (use_run F K (before ++ o :: after))) in
       In plain left /\ In data left /\ In body left
       /\ (forall p, pass = Some p -> zeros p = false -> In p left)
       /\ (o = UFromPath text pass -> In text left).
Proof.
  intros E. destruct (accepted_passes F K text pass k E) as (body & data & plain & pad & W & S). exists body, data, plain.
  split; [exact W|]. destruct (passes_not_zero _ _ _ _ _ _ _ W) as (Z1 & Z2 & Z3). split.
  - destruct S as (_ & b & Hb & ->). rewrite !be32_to_be.
    replace (skipn 8 (to_be 4 (sk_magic k) ++ to_be 4 (sk_magic k) ++ b ++ pad)) with (b ++ pad).
    + apply C55_bare_section. split; [reflexivity|]. exists b, pad. split; [exact Hb|reflexivity].
    + rewrite app_assoc, skipn_app, skipn_all2 by (rewrite app_length, !to_be_length; lia). rewrite app_length, !to_be_length. reflexivity.
  - intros before o after Ho left. destruct (C126_stages_stay F K text pass before o after Ho) as (H1 & H2 & H3 & H4 & H5).
    fold left in H1, H2, H3, H4, H5. pose proof (section_not_zero _ _ _ _ S) as Z4. destruct (passes_joined _ _ _ _ _ _ _ W) as [W1 W2].
    split; [exact (H3 _ _ _ W Z4)|]. split; [exact (H2 _ W2 Z3)|]. split; [exact (H1 _ W1 Z2)|]. split; [exact H4|]. intros X. exact (H5 X Z1).
Qed.
Print Assumptions C126_read_stays.

(** A bare section that breaks off behind the secret is refused, and the secret stays: not
    being part of a key yet, it is given back as it is. *)
Theorem C126_cut_section_stays F K k data before after : cut_key F k data ->
  (forall k', sk_from_bytes F data <> Ok k')
  /\ forall b, In b (secrets k) -> zeros b = false -> In b (leftovers (snd (use_run F K (before ++ UFromBytes data :: after)))).
Proof.
  intros C. pose proof (cut_rejected F k data C) as N. split; [exact N|]. intros b I Z.
  destruct (left_at F K before (UFromBytes data) after) as (l & L & H). apply H; [|exact Z].
  inversion L as [|d k' E|d l' N' S Br| | | | | | | |]; subst; [destruct (N _ E)|]. rewrite (S k C). exact I.
Qed.
Print Assumptions C126_cut_section_stays.

(** ** Writing *)
(** Writing a key leaves the unencrypted file, even if the key was read from an encrypted one. *)
Theorem C126_written_stays F K before i k text after : var (value_use_run F K before) i k -> sk_write k = Ok text ->
  exists data, sk_encode k = Ok data /\ In data (leftovers (snd (use_run F K (before ++ UWrite i :: after))))
    /\ forall k', storable F k' -> kept k k' -> forall pass, run (sk_from_reader F K pass) data = Ok k'.
Proof.
  intros V E. destruct (left_at F K before (UWrite i) after) as (l & L & H).
  inversion L as [| | | | | | |i' k1 t1 data pub se code sp V1 E1 Et Ee B Ef| i' N| |]; subst.
  2: { exfalso. exact (N _ _ V E). }
  unfold var in V, V1. rewrite V in V1. injection V1 as <-. exists (key_file (s2b "none") (s2b "none") [] pub se).
  split; [exact Ee|]. split; [apply H; [cbn; auto|reflexivity]|]. intros k' S Kp pass.
  destruct (C52_round_trip F K pass k k' S Kp) as (d & Hd & R). rewrite Ee in Hd. injection Hd as <-. specialize (R []). rewrite app_nil_r in R. exact R.
Qed.
Print Assumptions C126_written_stays.

(** ** Signing *)
(** Signing with an RSA key that was read leaves its numbers, as [RSAPrivateKey]. *)
Theorem C126_rsa_signed_stays F K before i k b r after : var (value_use_run F K before) i k -> priv_data F k b -> sk_kind k = SkRsa r ->
  f_rsa F = true ->
  let num x := magnitude x in
  exists der, rsa_private_der (num (rp_n r)) (num (rp_e r)) (num (rp_d r)) (num (rp_p r)) (num (rp_q r))
      (num (rp_d r) mod (num (rp_p r) - 1))%N (num (rp_d r) mod (num (rp_q r) - 1))%N (num (rp_coefficient r)) der
    /\ In der (leftovers (snd (use_run F K (before ++ USign i :: after)))).
Proof.
  intros V Hp Ek Ef num. destruct (accepted_rsa F k b r Hp Ek) as (pe & pn & _ & _ & _ & Hd). destruct (Hd Ef) as (dp & dq & der & Ed & Vp & Vq & D).
  rewrite Vp, Vq in D. exists der. split; [exact D|].
  destruct (left_at F K before (USign i) after) as (l & L & H).
  inversion L as [| | | | | | | | |i' k1 r1 der1 V1 E1 _ D1|i' N]; subst.
  2: { exfalso. exact (N _ _ _ V Ek Ef Ed). }
  unfold var in V, V1. rewrite V in V1. injection V1 as <-. rewrite Ek in E1. injection E1 as <-. rewrite Ed in D1. injection D1 as <-.
  apply H; [left; reflexivity|]. destruct D as (b0 & b1 & b2 & b3 & b4 & b5 & b6 & b7 & b8 & _ & _ & _ & _ & _ & _ & _ & _ & _ & (lb & _ & ->)). reflexivity.
Qed.
Print Assumptions C126_rsa_signed_stays.

(** ** Quiet programs *)
Lemma quiet_leaves F K o vars l : quiet F vars o -> leaves F K vars o l -> l = match o with UKey o => replaced_now o vars | _ => [] end.
Proof.
  intros Q L. destruct L; cbn [quiet] in Q; try contradiction; try reflexivity.
  - destruct Q as [k Q]. exfalso. exact (H k Q).
  - exfalso. exact (Q _ _ H H0).
Qed.
Lemma quiet_all F K : forall ops vars l, all_quiet F K ops vars -> leaves_all F K ops vars l -> l = replaced_all F K ops vars.
Proof.
  induction ops as [|o ops IH]; intros vars l Q L; inversion L as [|o' ops' v l1 l2 L1 L2]; subst; cbn [replaced_all all_quiet] in *; [reflexivity|].
  destruct Q as [Q1 Q2]. rewrite (IH _ _ Q2 L2), (quiet_leaves _ _ _ _ _ Q1 L1). reflexivity.
Qed.
(** A program that gets its keys from [from_bytes] or makes them, writes none, and signs with none of RSA
    leaves nothing but replaced PINs and paths, as in C114. *)
Theorem C126_quiet F K ops : all_quiet F K ops [] ->
  Permutation (leftovers (snd (use_run F K ops))) (filter (fun b => negb (zeros b)) (replaced_all F K ops [])).
Proof. intros Q. destruct (C126_leftovers F K ops) as (l & L & P). rewrite (quiet_all F K ops [] l Q L) in P. exact P. Qed.
Print Assumptions C126_quiet.

(** ** Cases *)
(** The private section of an encrypted file stays after its key was dropped, and gives the key to anyone
    without a passphrase; no PIN was ever set. *)
Definition ex_locked_file : bytes :=
  key_file (s2b "aes256-ctr") (s2b "bcrypt") (field (s2b "salt") ++ be32 16) (enc_key (sk_pub ex_ed)) (enc_section ex_ed ++ [x01; x02]).
Definition ex_locked_text : bytes := key_begin_line ++ [x0a] ++ b64_encode ex_locked_file ++ [x0a] ++ key_end_line.
Theorem C126_dropped_keys_are_gone_refuted : exists F K text pass k plain,
  sk_from_string F K text (Some pass) = Ok k
  /\ (forall wrong, sk_from_string F K text None <> Ok wrong)
  /\ let ops := [UFromString text (Some pass); UKey (KDrop 0)] in
     Forall (eq None) (value_use_run F K ops)
     /\ In plain (leftovers (snd (use_run F K ops))) /\ In pass (leftovers (snd (use_run F K ops)))
     /\ sk_from_bytes F (skipn 8 plain) = Ok (mkPrivKey (sk_type k) (sk_kind k) (sk_pub k) 0 (sk_comment k)).
Proof.
  assert (E : sk_from_string ex_features ex_ops ex_locked_text (Some (s2b "secret")) = Ok ex_ed) by (vm_compute; reflexivity).
  destruct (C126_read_stays _ _ _ _ _ E) as (body & data & plain & _ & R & H).
  exists ex_features, ex_ops, ex_locked_text, (s2b "secret"), ex_ed, plain. split; [exact E|].
  split; [intros wrong; vm_compute; discriminate|]. cbn zeta.
  destruct (H [] (UFromString ex_locked_text (Some (s2b "secret"))) [UKey (KDrop 0)] (or_introl eq_refl)) as (H1 & _ & _ & H2 & _).
  split; [unfold value_use_run; cbn [fold_left value_use_step]; rewrite E; repeat constructor|].
  split; [exact H1|]. split; [exact (H2 _ eq_refl eq_refl)|exact R].
Qed.
Print Assumptions C126_dropped_keys_are_gone_refuted.

(** Five buffers by path: text, passphrase, base64, file and section; nothing more. *)
Example C126_case_read :
  leftovers (snd (use_run ex_features ex_ops [UFromPath ex_locked_text (Some (s2b "secret")); UKey (KDrop 0)]))
  = [ex_locked_text; s2b "secret"; b64_encode ex_locked_file; ex_locked_file; enc_section ex_ed ++ [x01; x02]].
Proof. vm_compute. reflexivity. Qed.
(** A read that fails: the check integers differ. *)
Example C126_case_failed :
  let file := key_file (s2b "none") (s2b "none") [] (enc_key (sk_pub ex_rsa)) (be32 1 ++ be32 2 ++ s2b "anything") in
  let text := key_begin_line ++ [x0a] ++ b64_encode file ++ [x0a] ++ key_end_line in
  sk_from_string ex_features ex_ops text (Some (s2b "secret")) = Err EInvalidFormat
  /\ leftovers (snd (use_run ex_features ex_ops [UFromString text (Some (s2b "secret"))]))
     = [s2b "secret"; b64_encode file; file; be32 1 ++ be32 2 ++ s2b "anything"].
Proof. vm_compute. auto. Qed.
(** No END line. *)
Example C126_case_no_end :
  let text := key_begin_line ++ [x0a] ++ s2b "AAAA" ++ [x0a] ++ s2b "BBBB" in
  joined text (s2b "AAAABBBB") /\ leftovers (snd (use_run ex_features ex_ops [UFromString text None])) = [s2b "AAAABBBB"].
Proof.
  cbn zeta. split; [|vm_compute; reflexivity]. exists [s2b "AAAA"; s2b "BBBB"], []. split; [apply lines_iff; vm_compute; reflexivity|].
  split; [intros [E|[E|[]]]; discriminate|]. split; [reflexivity|auto].
Qed.
(** A section without its comment. *)
Example C126_case_cut :
  let data := field (s2b "ssh-ed25519") ++ field (repeat x33 32) ++ field (repeat x22 64) ++ [x00; x00; x00; x09; x41] in
  cut_key ex_features ex_ed data /\ secrets ex_ed = [repeat x22 64]
  /\ leftovers (snd (use_run ex_features ex_ops [UFromBytes data])) = [repeat x22 64].
Proof.
  cbn zeta. split; [|vm_compute; auto]. apply cut_iff. exists [x00; x00; x00; x09; x41].
  pose proof (storable_iff _ _ ex_ed_storable) as ((P1 & P2 & _ & _ & P5 & _) & _).
  split; [exact P1|]. split; [exact P2|]. split; [exact P5|]. split; [intros c; vm_compute; discriminate|vm_compute; reflexivity].
Qed.
(** An RSA section that ends behind its second number: these two stay, and nothing else. *)
Example C126_case_broken :
  let data := field (s2b "ssh-rsa") ++ field [x00; x8f] ++ field [x07] ++ [x00; x00; x00; x02; x41] in
  broken ex_features data [[x8f]; [x07]]
  /\ leftovers (snd (use_run ex_features ex_ops [UFromBytes data])) = [[x8f]; [x07]].
Proof.
  cbn zeta. split; [|vm_compute; reflexivity].
  match goal with |- broken _ ?d _ => replace [[x8f]; [x07]] with (key_left ex_features (reader_new d)) by (vm_compute; reflexivity) end.
  apply key_left_broken. rewrite bare_key_iff. intros [k E]. vm_compute in E. discriminate.
Qed.
(** Written and signed with: an RSA key that was made, so nothing comes from reading. *)
Example C126_case_used : exists data der,
  sk_encode ex_rsa = Ok data /\ var (value_use_run ex_features ex_ops [UKey (KNew ex_rsa)]) 0 ex_rsa
  /\ storable ex_features ex_rsa /\ kept ex_rsa ex_rsa
  /\ leftovers (snd (use_run ex_features ex_ops [UKey (KNew ex_rsa); USign 0; UWrite 0; UKey (KDrop 0)]))
     = [der; enc_section ex_rsa ++ firstn 7 pad_bytes; data; b64_encode data; split_lines 0 (b64_encode data)]
  /\ der = [x30; x1c; x02; x01; x00; x02; x02; x00; x8f; x02; x01; x07; x02; x01; x67; x02; x01; x0b; x02; x01; x0d;
            x02; x01; x03; x02; x01; x07; x02; x01; x06].
Proof.
  eexists. eexists. split; [vm_compute; reflexivity|]. split; [reflexivity|]. split; [apply ex_rsa_storable|].
  split; [apply C52_case|]. split; [vm_compute; reflexivity|reflexivity].
Qed.
(** A quiet program: an Ed25519 key from bytes signs and is dropped; the PIN of a hardware key is set
    twice. *)
Example C126_case_quiet :
  let ops := [UFromBytes (skipn 8 (enc_section ex_ed)); USign 0; UKey (KDrop 0); UKey (KNew ex_hw); UKey (KPin 1 (s2b "1234"));
              UKey (KPin 1 (s2b "5678")); UKey (KDrop 1)] in
  all_quiet ex_features ex_ops ops [] /\ value_use_run ex_features ex_ops ops = [None; None]
  /\ leftovers (snd (use_run ex_features ex_ops ops)) = [s2b "1234"].
Proof.
  cbn zeta. split; [|vm_compute; auto].
  cbn [all_quiet]. repeat (split; [cbn [quiet]; try exact I|]); try exact I.
  - eexists. vm_compute. reflexivity.
  - intros k r V. vm_compute in V. injection V as <-. discriminate.
Qed.

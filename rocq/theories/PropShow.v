(** Properties C92-C94 (what is printed for people). *)
From Verif Require Import Base BaseFacts Str StrFacts SpecWire SpecKeys SpecCert SpecText SpecSigner SpecShow Crypto KeyType
  KeyTypeFacts PubKeyType PubKey PubKeyFacts Cert CertFacts TbsFacts Chrono AllowedSigner FileFacts PropPubKey PropCert
  PrivKey PropPrivKey PropSigner Show ShowFacts.

(** ** C92 *)
Lemma fold_items {A} (g : A -> bytes) l : forall t, fold_left (fun t p => t ++ [x09] ++ g p ++ [newline]) l t
  = t ++ ended_lines (map (fun p => x09 :: g p) l).
Proof.
  induction l as [|p l IH]; intros t; cbn [fold_left map]; [cbn; rewrite app_nil_r; reflexivity|].
  rewrite IH. unfold ended_lines. cbn [map concat]. rewrite <- !app_assoc. reflexivity.
Qed.
Lemma fold_items2 (l : hashmap) : forall t, fold_left (fun t e => t ++ [x09] ++ fst e ++ [space] ++ snd e ++ [newline]) l t
  = t ++ ended_lines (map (fun e => x09 :: fst e ++ x20 :: snd e) l).
Proof.
  induction l as [|p l IH]; intros t; cbn [fold_left map]; [cbn; rewrite app_nil_r; reflexivity|].
  rewrite IH. unfold ended_lines. cbn [map concat]. rewrite <- !app_assoc. cbn [app]. rewrite <- !app_assoc. reflexivity.
Qed.
(** What is printed is the listing. *)
Theorem C92_layout : forall (C : crypto) (iter : hashmap -> hashmap) (c : cert) (t : bytes),
  (forall m, Permutation (iter m) m) -> cert_listing C iter c = Ok t ->
  exists ls, listing C c ls /\ t = ended_lines ls.
Proof.
  intros C iter c t Hi H. unfold cert_listing in H. cbv zeta in H.
  apply bind_ok in H. destruct H as (f & Hf & H). apply bind_ok in H. destruct H as (g & Hg & H). apply ok_inj in H. subst t.
  apply fingerprint_digest in Hf, Hg. destruct Hf as (Kf & Df & _), Hg as (Kg & Dg & _). rewrite Kf, Kg.
  set (valid := if (ct_valid_before c =? forever)%N && (ct_valid_after c =? 0)%N then s2b "Valid: forever"
                else s2b "Valid between: " ++ decimal (ct_valid_after c) ++ s2b " and " ++ decimal (ct_valid_before c)).
  set (co := match ct_critical_options c with [] => [] | m => iter m end).
  set (ex := match ct_extensions c with [] => [] | m => iter m end).
  set (tp := match ct_principals c with [] => s2b "Principals: (none)" | _ => s2b "Principals" end).
  set (tc := match co with [] => s2b "Critical Options: (none)" | _ => s2b "Critical Options:" end).
  set (te := match ex with [] => s2b "Extensions: (none)" | _ => s2b "Extensions:" end).
  exists ([ s2b "Type: " ++ kt_name (ct_key_type c) ++ x20 :: type_text (ct_cert_type c);
              s2b "Public Key: " ++ kt_short_name (ct_key_type c) ++ s2b " SHA256:" ++ fp_hash f;
              s2b "Signing CA: " ++ kt_short_name (pk_type (ct_signature_key c)) ++ s2b " SHA256:" ++ fp_hash g
                ++ s2b " (using " ++ kt_name (pk_type (ct_signature_key c)) ++ s2b ")";
              s2b "Key ID: " ++ x22 :: ct_key_id c ++ [x22];
              s2b "Serial: " ++ decimal (ct_serial c); valid ]
    ++ (tp :: map (cons x09) (ct_principals c)) ++ (tc :: map (cons x09) (map (fun e => fst e ++ x20 :: snd e) co))
    ++ (te :: map (cons x09) (map fst ex))).
  assert (L : forall t (l : list bytes), listed_items t l (t :: map (cons x09) l)).
  { intros t [|a l]; [left; auto|right; split; [discriminate|reflexivity]]. }
  split.
  - exists (fp_hash f), (fp_hash g), (decimal (ct_serial c)), valid. do 2 eexists. eexists. exists ex. eexists.
    split; [exact Df|]. split; [exact Dg|]. split; [apply decimal_n|]. split.
    { unfold validity_line, valid. change (2 ^ 64 - 1)%N with forever.
      destruct (N.eqb_spec (ct_valid_before c) forever) as [E1|E1], (N.eqb_spec (ct_valid_after c) 0) as [E2|E2]; cbn [andb]; [left; auto| | |];
        right; (split; [tauto|]); exists (decimal (ct_valid_after c)), (decimal (ct_valid_before c)); repeat split; apply decimal_n. }
    split; [apply L|]. split; [|split; [apply L|split; [|split; [apply L|reflexivity]]]].
    + unfold co. destruct (ct_critical_options c); [constructor|apply Hi].
    + unfold ex. destruct (ct_extensions c); [constructor|apply Hi].
  - rewrite !ended_lines_app.
    replace (if (ct_valid_before c =? forever)%N && (ct_valid_after c =? 0)%N then _ else _) with
      (ended_lines [ s2b "Type: " ++ kt_name (ct_key_type c) ++ x20 :: type_text (ct_cert_type c);
              s2b "Public Key: " ++ kt_short_name (ct_key_type c) ++ s2b " SHA256:" ++ fp_hash f;
              s2b "Signing CA: " ++ kt_short_name (pk_type (ct_signature_key c)) ++ s2b " SHA256:" ++ fp_hash g
                ++ s2b " (using " ++ kt_name (pk_type (ct_signature_key c)) ++ s2b ")";
              s2b "Key ID: " ++ x22 :: ct_key_id c ++ [x22];
              s2b "Serial: " ++ decimal (ct_serial c); valid ]).
    2:{ unfold ended_lines, valid. cbn [map concat]. change (type_text (ct_cert_type c)) with (cert_type_display (ct_cert_type c)).
        change (s2b " SHA256:") with ([space] ++ fp_kind_name FpSha256 ++ s2b ":").
        destruct (_ && _); rewrite <- !app_assoc; cbn [app]; rewrite <- ?app_assoc; cbn [app]; rewrite <- ?app_assoc; reflexivity. }
    match goal with |- context[ended_lines [?a1; ?a2; ?a3; ?a4; ?a5; ?a6]] => set (head := ended_lines [a1; a2; a3; a4; a5; a6]) end. unfold tp, tc, te, co, ex.
    destruct (ct_principals c) as [|p ps], (ct_critical_options c) as [|o os], (ct_extensions c) as [|e es];
    rewrite ?(fold_items (fun p => p)), ?fold_items2, ?(fold_items fst);
    repeat match goal with |- context[iter (?a :: ?b)] => 
      let E := fresh in pose proof (Hi (a :: b)) as E; let i := fresh "i" in set (i := iter (a :: b)) in *; 
      destruct i; [apply Permutation_nil in E; discriminate|]; clear E end;
    unfold ended_lines; cbn [map concat]; rewrite ?map_map; rewrite <- ?app_assoc; cbn [app]; rewrite <- ?app_assoc; reflexivity.
Qed.
Print Assumptions C92_layout.

(** It is printed unless a key cannot be encoded; the keys of parsed certificates can. *)
Theorem C92_printed : forall (C : crypto) (iter : hashmap -> hashmap) (c : cert),
  (exists t, cert_listing C iter c = Ok t)
  \/ (cert_listing C iter c = Panic /\ (pk_encode (ct_key c) = Panic \/ pk_encode (ct_signature_key c) = Panic)).
Proof.
  intros C iter c. unfold cert_listing. cbv zeta.
  destruct (fingerprint_cases C (ct_key c)) as [(f & ->)|[E ->]]; [|right; cbn [bind]; auto]. cbn [bind].
  destruct (fingerprint_cases C (ct_signature_key c)) as [(g & ->)|[E ->]]; [|right; cbn [bind]; auto]. cbn [bind].
  left. eexists. reflexivity.
Qed.
Print Assumptions C92_printed.

Lemma validity_no_nl a b l : validity_line a b l -> no_nl l.
Proof.
  intros [(_ & _ & ->)|(_ & x & y & Hx & Hy & ->)]; [intros H; vm_compute in H; intuition discriminate|].
  apply decimal_digits in Hx, Hy. apply no_nl_app; [intros H; vm_compute in H; intuition discriminate|].
  apply no_nl_app; [apply plain_no_nl, digits_plain, Hx|].
  apply no_nl_app; [intros H; vm_compute in H; intuition discriminate|apply plain_no_nl, digits_plain, Hy].
Qed.
Ltac literal := let H := fresh in intros H; vm_compute in H; intuition discriminate.
Lemma items_no_nl t a l : no_nl t -> Forall no_nl a -> listed_items t a l -> Forall no_nl l.
Proof.
  intros Ht Ha H. apply listed_items_lines in H. subst l. constructor; [exact Ht|]. apply Forall_map.
  revert Ha. apply Forall_impl. intros x Hx. apply no_nl_cons; [discriminate|exact Hx].
Qed.
Definition types_supported (c : cert) : Prop := supported (ct_key_type c) /\ supported (pk_type (ct_signature_key c)).
Lemma listing_no_nl C c ls : types_supported c -> one_line_texts c -> listing C c ls -> Forall no_nl ls.
Proof.
  intros [S1 S2] (Hid & Hp & Ho & He) (key & ca & sn & va & ps & co & os & ex & es & Dk & Dc & Hs & Hv & Lp & Pc & Lc & Pe & Le & ->).
  apply supported_known in S1, S2. apply known_plain_text in S1, S2. destruct S1 as [N1 M1], S2 as [N2 M2].
  apply digest_plain in Dk, Dc. destruct Dk as [Dk _], Dc as [Dc _]. apply decimal_digits in Hs. destruct Hs as [Hs _]. apply digits_plain in Hs.
  apply Forall_app. split.
  - repeat (apply Forall_cons).
    + apply no_nl_app; [literal|]. apply no_nl_app; [apply plain_no_nl, N1|]. destruct (ct_cert_type c); literal.
    + apply no_nl_app; [literal|]. apply no_nl_app; [apply plain_no_nl, M1|]. apply no_nl_app; [literal|apply plain_no_nl, Dk].
    + apply no_nl_app; [literal|]. apply no_nl_app; [apply plain_no_nl, M2|]. apply no_nl_app; [literal|].
      apply no_nl_app; [apply plain_no_nl, Dc|]. apply no_nl_app; [literal|]. apply no_nl_app; [apply plain_no_nl, N2|literal].
    + apply no_nl_app; [literal|]. apply no_nl_cons; [discriminate|]. apply no_nl_app; [exact Hid|literal].
    + apply no_nl_app; [literal|apply plain_no_nl, Hs].
    + eapply validity_no_nl; eauto.
    + constructor.
  - rewrite <- Pc in Ho. rewrite <- Pe in He. apply Forall_app. split; [|apply Forall_app; split].
    + eapply items_no_nl; [|exact Hp|exact Lp]. destruct (ct_principals c); literal.
    + eapply items_no_nl; [| |exact Lc]; [destruct co; literal|]. apply Forall_map. revert Ho. apply Forall_impl.
      intros e (H1 & _ & H2). apply no_nl_app; [exact H1|]. apply no_nl_cons; [discriminate|exact H2].
    + eapply items_no_nl; [| |exact Le]; [destruct ex; literal|]. apply Forall_map, He.
Qed.
(** Words without spaces in front of a space. *)
Lemma spaced_split (a b r s : bytes) : plain_text a -> plain_text b -> a ++ x20 :: r = b ++ x20 :: s -> a = b /\ r = s.
Proof. intros Ha Hb. apply split_at; apply plain_no_space; auto. Qed.
Lemma validity_unique a b a' b' l : validity_line a b l -> validity_line a' b' l -> a = a' /\ b = b'.
Proof.
  intros [(-> & -> & ->)|(_ & x & y & Hx & Hy & ->)] [(-> & -> & E)|(_ & x' & y' & Hx' & Hy' & E)].
  - auto.
  - discriminate.
  - discriminate.
  - apply app_inv_head in E. pose proof (decimal_digits _ _ Hx) as (Fx & _). pose proof (decimal_digits _ _ Hx') as (Fx' & _).
    change (s2b " and ") with (x20 :: s2b "and ") in E. cbn [app] in E.
    apply spaced_split in E; [|apply digits_plain, Fx|apply digits_plain, Fx']. destruct E as [-> E].
    apply app_inv_head in E. subst y'. split; eapply decimal_same; eauto.
Qed.
Lemma items_untabbed t a l x : (forall r, t <> x09 :: r) -> listed_items t a l -> untabbed (l ++ x).
Proof. intros Ht H. apply listed_items_lines in H. subst l. exact Ht. Qed.
Lemma supported_same k k' : supported k -> supported k' -> kt_name k = kt_name k' -> k = k'.
Proof. unfold supported. intros H H' E. rewrite E, H' in H. injection H. auto. Qed.
Lemma option_lines_inj (l : hashmap) : forall m, Forall (fun e => ~ In x20 (fst e)) l -> Forall (fun e => ~ In x20 (fst e)) m ->
  map (fun e => fst e ++ x20 :: snd e) l = map (fun e => fst e ++ x20 :: snd e) m -> l = m.
Proof.
  induction l as [|[k v] l IH]; intros [|[k' v'] m] Hl Hm E; try discriminate; [reflexivity|]. cbn [map fst snd] in E.
  apply Forall_cons_iff in Hl, Hm. cbn [fst] in *. injection E as E1 E2. apply split_at in E1; try tauto. destruct E1 as [-> ->].
  f_equal. apply IH; tauto.
Qed.
Lemma listing_facts C a b ls : types_supported a -> types_supported b -> one_line_texts a -> one_line_texts b ->
  listing C a ls -> listing C b ls -> same_facts C a b.
Proof.
  intros [S1 S2] [T1 T2] (_ & _ & Oa & _) (_ & _ & Ob & _).
  intros (key & ca & sn & va & ps & co & os & ex & es & Dk & Dc & Hs & Hv & Lp & Pc & Lc & Pe & Le & ->).
  intros (key' & ca' & sn' & va' & ps' & co' & os' & ex' & es' & Dk' & Dc' & Hs' & Hv' & Lp' & Pc' & Lc' & Pe' & Le' & E).
  pose proof (known_plain_text _ (proj1 (supported_known _) S1)) as [N1 M1]. pose proof (known_plain_text _ (proj1 (supported_known _) S2)) as [N2 M2].
  pose proof (known_plain_text _ (proj1 (supported_known _) T1)) as [N3 M3]. pose proof (known_plain_text _ (proj1 (supported_known _) T2)) as [N4 M4].
  cbn [app] in E. injection E as E1 E2 E3 E4 E5 E6 E7.
  apply spaced_split in E1; auto. destruct E1 as [K1 E1]. apply supported_same in K1; auto.
  assert (Ht : ct_cert_type a = ct_cert_type b) by (destruct (ct_cert_type a), (ct_cert_type b); try discriminate E1; reflexivity).
  apply spaced_split in E2; auto. destruct E2 as [_ E2]. injection E2 as E2. subst key'.
  pose proof (proj1 (digest_plain _ _ _ Dc)) as Pca. pose proof (proj1 (digest_plain _ _ _ Dc')) as Pca'.
  apply spaced_split in E3; auto. destruct E3 as [_ E3]. injection E3 as E3. apply spaced_split in E3; auto. destruct E3 as [<- E3].
  injection E3 as E3. apply app_inv_tail in E3. apply supported_same in E3; auto.
  apply app_inv_tail in E4. subst sn' va'.
  pose proof (validity_unique _ _ _ _ _ Hv Hv') as [Va Vb]. pose proof (decimal_same _ _ _ Hs Hs') as Es.
  assert (Ux : forall (m : hashmap) l r, listed_items (match m with [] => s2b "Extensions: (none)" | _ => s2b "Extensions:" end) (map fst m) l -> untabbed (l ++ r)).
  { intros m l r. apply items_untabbed. destruct m; discriminate. }
  assert (Uo : forall (m : hashmap) l r, listed_items (match m with [] => s2b "Critical Options: (none)" | _ => s2b "Critical Options:" end)
                 (map (fun e => fst e ++ x20 :: snd e) m) l -> untabbed (l ++ r)).
  { intros m l r. apply items_untabbed. destruct m; discriminate. }
  eapply items_split in E7; [|exact Lp|exact Lp'|eapply Uo; eauto|eapply Uo; eauto]. destruct E7 as (_ & Ep & E7).
  rewrite <- (app_nil_r es), <- (app_nil_r es') in E7.
  eapply items_split in E7; [|exact Lc|exact Lc'|eapply Ux; eauto|eapply Ux; eauto]. destruct E7 as (_ & Ec & E7).
  eapply items_split in E7; [|exact Le|exact Le'|exact I|exact I]. destruct E7 as (_ & Ee & _).
  apply option_lines_inj in Ec.
  2:{ rewrite Pc. revert Oa. apply Forall_impl. tauto. }
  2:{ rewrite Pc'. revert Ob. apply Forall_impl. tauto. }
  subst co'. unfold same_facts. repeat (split; [solve [eauto | lia]|]). split; [rewrite <- Pc; exact Pc'|].
  rewrite <- Pe, <- Pe', Ee. reflexivity.
Qed.

(** Two certificates whose texts stay on their lines and that print alike agree on every fact
    printed, whatever the order of iteration was. *)
Theorem C92_unambiguous : forall (C : crypto) (iter iter' : hashmap -> hashmap) (a b : cert) (t : bytes),
  (forall m, Permutation (iter m) m) -> (forall m, Permutation (iter' m) m) ->
  types_supported a -> types_supported b -> one_line_texts a -> one_line_texts b ->
  cert_listing C iter a = Ok t -> cert_listing C iter' b = Ok t -> same_facts C a b.
Proof.
  intros C iter iter' a b t Hi Hi' Sa Sb Oa Ob Ha Hb.
  apply C92_layout in Ha as (ls & La & ->); auto. apply C92_layout in Hb as (ms & Lb & E); auto.
  apply ended_lines_inj in E; [|exact (listing_no_nl _ _ _ Sa Oa La)|exact (listing_no_nl _ _ _ Sb Ob Lb)]. subst ms.
  exact (listing_facts _ _ _ _ Sa Sb Oa Ob La Lb).
Qed.
Print Assumptions C92_unambiguous.

(** And certificates that agree on these facts have the same listings: nothing else shows. *)
Lemma map_fst_perm (m n : hashmap) : Permutation (map fst m) (map fst n) -> exists o, Permutation o n /\ map fst o = map fst m.
Proof. intros H. destruct (Permutation_map_inv _ _ H) as (o & E & P). exists o. split; [symmetry; exact P|]. symmetry. exact E. Qed.
Lemma digest_same C k k' h h' : key_digest C k h -> key_digest C k h' -> key_digest C k' h' -> key_digest C k' h.
Proof. intros H1 H2 H3. apply digest_plain in H1 as [_ H1]. pose proof (digest_plain _ _ _ H2) as [_ H4]. congruence. Qed.
Theorem C92_nothing_else : forall (C : crypto) (a b : cert) (ls : list bytes),
  same_facts C a b -> listing C a ls -> listing C b ls.
Proof.
  intros C a b ls (Kt & Ct & (h & D1 & D2) & Kc & (g & D3 & D4) & Ki & Se & Va & Vb & Pr & Po & Px).
  intros (key & ca & sn & va & ps & co & os & ex & es & Dk & Dc & Hs & Hv & Lp & Pc & Lc & Pe & Le & ->).
  destruct (map_fst_perm ex (ct_extensions b)) as (ox & Pox & Eox); [rewrite Pe; exact Px|].
  exists key, ca, sn, va, ps, co, os, ox, es. rewrite <- Kt, <- Ct, <- Kc, <- Ki, <- Se, <- Va, <- Vb, <- Pr.
  repeat match goal with |- _ /\ _ => split end; auto.
  - eapply digest_same; [exact Dk|exact D1|exact D2].
  - eapply digest_same; [exact Dc|exact D3|exact D4].
  - rewrite <- Po. exact Pc.
  - rewrite Eox. destruct ex, ox; try discriminate; exact Le.
Qed.
Print Assumptions C92_nothing_else.

(** "Valid: forever" stands on a line of its own exactly for the certificates that are. *)
Theorem C92_forever : forall (C : crypto) (iter : hashmap -> hashmap) (c : cert) (t : bytes),
  (forall m, Permutation (iter m) m) -> types_supported c -> one_line_texts c -> cert_listing C iter c = Ok t ->
  ((exists before behind, t = ended_lines (before ++ s2b "Valid: forever" :: behind) /\ Forall no_nl (before ++ behind))
   <-> ct_valid_after c = 0%N /\ ct_valid_before c = (2 ^ 64 - 1)%N).
Proof.
  intros C iter c t Hi Sc Oc Ht. apply C92_layout in Ht as (ls & L & ->); auto. pose proof (listing_no_nl _ _ _ Sc Oc L) as Hn.
  pose proof L as (key & ca & sn & va & ps & co & os & ex & es & Dk & Dc & Hs & Hv & Lp & Pc & Lc & Pe & Le & ->). split.
  - intros (x & y & E & Hxy). apply ended_lines_inj in E; [|exact Hn|].
    2:{ apply Forall_app in Hxy. apply Forall_app. split; [tauto|]. constructor; [literal|tauto]. }
    assert (Hin : In (s2b "Valid: forever") (x ++ s2b "Valid: forever" :: y)) by (apply in_or_app; right; left; reflexivity).
    rewrite <- E in Hin. clear E.
    assert (T : forall (A : Type) (t1 t2 : bytes) (f : A -> bytes) (m : list A) l,
              t1 <> s2b "Valid: forever" -> t2 <> s2b "Valid: forever" ->
              listed_items (match m with [] => t1 | _ => t2 end) (map f m) l -> ~ In (s2b "Valid: forever") l).
    { intros A t1 t2 f m l H1 H2 Hl Hf. apply listed_items_lines in Hl. subst l. destruct Hf as [Hf|Hf]; [destruct m; contradiction|].
      apply in_map_iff in Hf as (z & Hz & _). discriminate. }
    apply in_app_or in Hin. destruct Hin as [Hin|Hin].
    + cbn [In] in Hin. destruct Hin as [Hin|[Hin|[Hin|[Hin|[Hin|[Hin|[]]]]]]]; try discriminate Hin.
      destruct Hv as [(Ha & Hb & _)|(_ & a & b & _ & _ & Hl)]; [auto|]. rewrite Hin in Hl. discriminate.
    + exfalso. apply in_app_or in Hin. destruct Hin as [Hin|Hin].
      * rewrite <- (map_id (ct_principals c)) in Lp at 2. eapply T in Lp; [exact (Lp Hin)|discriminate|discriminate].
      * apply in_app_or in Hin. destruct Hin as [Hin|Hin].
        -- eapply T in Lc; [exact (Lc Hin)|discriminate|discriminate].
        -- eapply T in Le; [exact (Le Hin)|discriminate|discriminate].
  - intros [Ha Hb]. destruct Hv as [(_ & _ & ->)|(Hf & _)]; [|tauto].
    match goal with |- context[ended_lines ([?a; ?b; ?c; ?d; ?e; ?f] ++ ?r)] => exists [a; b; c; d; e], r end. split; [reflexivity|].
    apply Forall_app in Hn. destruct Hn as [H1 H2]. apply Forall_app. split; [|exact H2].
    repeat (apply Forall_cons_iff in H1; let h := fresh in destruct H1 as [h H1]). repeat constructor; assumption.
Qed.
Print Assumptions C92_forever.

(** Every parsed certificate is printed, with supported key types. *)
Theorem C92_parsed : forall (C : crypto) (iter : hashmap -> hashmap) (data : bytes) (c : cert),
  cert_from_bytes C data = Ok c -> types_supported c /\ exists t, cert_listing C iter c = Ok t.
Proof.
  intros C iter data c H. apply cert_from_bytes_iff in H. destruct H as (sp & post & Hc & _).
  destruct Hc as (pb & cb & eb & skb & skpost & K1 & _ & _ & K2 & _ & _ & O2 & _ & _ & _ & _ & _ & _ & _ & _ & _ & _ & _ & _ & (K3 & _ & O3) & _).
  split; [split; apply supported_known; assumption|].
  assert (E : forall k, known (pk_type k) -> kind_ok (pk_type k) (pk_kind k) -> pk_encode k <> Panic).
  { intros k Hk Ho. rewrite pk_encode_enc; [discriminate|exact Hk|]. rewrite (canon_ok _ _ Ho). exact Ho. }
  destruct (C92_printed C iter c) as [Hp|[_ [Hp|Hp]]]; [exact Hp|destruct (E _ K2 O2 Hp)|destruct (E _ K3 O3 Hp)].
Qed.
Print Assumptions C92_parsed.

(** Certificates made by the builder, signed, and parsed again. *)
Definition parsed_with (ops : list build_op) : res cert :=
  do? c <- builder (Some [xaa; xbb]) (Some [x00; x00; x00; x00; x00; x00; x00; x01]) ex_subject User ex_ca;
  do? c <- add_signature lax_crypto (fun m => m) (apply_ops c ops) ex_sig;
  cert_from_bytes lax_crypto (ct_serialized c).

Definition nl (s : string) : bytes := s2b s ++ [x0a].
Example C92_case : exists c, cert_from_bytes lax_crypto ex_data = Ok c
  /\ types_supported c /\ one_line_texts c
  /\ cert_listing lax_crypto (fun m => m) c = Ok (
       nl "Type: ssh-ed25519-cert-v01@openssh.com user certificate"
    ++ nl "Public Key: ED25519-CERT SHA256:ERERERERERERERERERERERERERERERERERERERERERE"
    ++ nl "Signing CA: ED25519 SHA256:ERERERERERERERERERERERERERERERERERERERERERE (using ssh-ed25519)"
    ++ s2b "Key ID: " ++ [x22] ++ s2b "alice laptop" ++ [x22; x0a]
    ++ nl "Serial: 7" ++ nl "Valid between: 10 and 20"
    ++ nl "Principals" ++ x09 :: nl "alice" ++ x09 :: nl "root"
    ++ nl "Critical Options:" ++ x09 :: nl "force-command ls"
    ++ nl "Extensions:" ++ x09 :: nl "permit-X11-forwarding" ++ x09 :: nl "permit-user-rc"
    ++ x09 :: nl "permit-pty" ++ x09 :: nl "permit-port-forwarding" ++ x09 :: nl "permit-agent-forwarding").
Proof.
  eexists. split; [vm_compute; reflexivity|]. split; [split; reflexivity|]. split.
  - vm_compute. intuition (repeat constructor; intuition discriminate).
  - vm_compute. reflexivity.
Qed.

(** Without the condition on the texts: a principal can pass for two, and a key id can claim
    unlimited validity, in certificates that parse. *)
Theorem C92_unambiguous_refuted : exists a b t,
  parsed_with [OpKeyId (s2b "k"); OpPrincipal (s2b "alice" ++ [x0a; x09] ++ s2b "root")] = Ok a
  /\ parsed_with [OpKeyId (s2b "k"); OpPrincipal (s2b "alice"); OpPrincipal (s2b "root")] = Ok b
  /\ cert_listing lax_crypto (fun m => m) a = Ok t /\ cert_listing lax_crypto (fun m => m) b = Ok t
  /\ ct_principals a <> ct_principals b.
Proof.
  do 3 eexists. repeat (split; [vm_compute; reflexivity|]). discriminate.
Qed.
Print Assumptions C92_unambiguous_refuted.
Theorem C92_forever_refuted : exists c before behind,
  parsed_with [OpKeyId (s2b "k" ++ x0a :: s2b "Valid: forever" ++ x0a :: s2b "Note: " ++ [x22]); OpValidAfter 10; OpValidBefore 20] = Ok c
  /\ cert_listing lax_crypto (fun m => m) c = Ok (ended_lines (before ++ s2b "Valid: forever" :: behind))
  /\ Forall no_nl (before ++ behind) /\ ct_valid_before c = 20%N.
Proof.
  eexists. exists [s2b "Type: ssh-ed25519-cert-v01@openssh.com user certificate";
    s2b "Public Key: ED25519-CERT SHA256:ERERERERERERERERERERERERERERERERERERERERERE";
    s2b "Signing CA: ED25519 SHA256:ERERERERERERERERERERERERERERERERERERERERERE (using ssh-ed25519)";
    s2b "Key ID: " ++ [x22] ++ s2b "k"].
  exists [s2b "Note: " ++ [x22; x22]; s2b "Serial: 1"; s2b "Valid between: 10 and 20"; s2b "Principals: (none)";
    s2b "Critical Options: (none)"; s2b "Extensions: (none)"].
  split; [vm_compute; reflexivity|]. split; [vm_compute; reflexivity|]. split; [|reflexivity].
  repeat (apply Forall_cons; [literal|]). constructor.
Qed.
Print Assumptions C92_forever_refuted.
(** The values of extensions do not show. *)
Theorem C92_extension_values_shown_refuted : exists a b t,
  parsed_with [OpExtension (s2b "login@github.com") (s2b "alice")] = Ok a
  /\ parsed_with [OpExtension (s2b "login@github.com") (s2b "root")] = Ok b
  /\ cert_listing lax_crypto (fun m => m) a = Ok t /\ cert_listing lax_crypto (fun m => m) b = Ok t
  /\ ct_extensions a <> ct_extensions b.
Proof. do 3 eexists. repeat (split; [vm_compute; reflexivity|]). discriminate. Qed.
Print Assumptions C92_extension_values_shown_refuted.

(** ** C93 *)
Theorem C93_summary : forall (C : crypto) (k : privkey) (t : bytes),
  privkey_display C k = Ok t <-> exists h, key_digest C (sk_pub k) h /\ t = s2b "SHA256:" ++ h ++ x20 :: sk_comment k.
Proof.
  intros C k t. unfold privkey_display. split.
  - intros H. apply bind_ok in H as (f & Hf & H). apply ok_inj in H. apply fingerprint_digest in Hf. destruct Hf as (Ek & Hd & _).
    exists (fp_hash f). split; [exact Hd|]. subst t. unfold fp_display. rewrite Ek. cbn [fp_kind_name]. rewrite <- !app_assoc. reflexivity.
  - intros (h & Hd & ->). apply digest_plain in Hd. destruct Hd as [_ ->]. cbn [bind]. unfold fp_display. cbn [fp_k fp_hash fp_kind_name].
    rewrite <- !app_assoc. reflexivity.
Qed.
Print Assumptions C93_summary.

(** The secret parts have no part in it. *)
Theorem C93_no_secrets : forall (C : crypto) (j k : privkey),
  sk_pub j = sk_pub k -> sk_comment j = sk_comment k -> privkey_display C j = privkey_display C k.
Proof. intros C j k E F. unfold privkey_display. rewrite E, F. reflexivity. Qed.
Print Assumptions C93_no_secrets.

Example C93_case : exists t,
  privkey_display lax_crypto ex_ed = Ok t /\ sk_comment ex_ed <> []
  /\ privkey_display lax_crypto (mkPrivKey (sk_type ex_ed) (SkEd25519 (repeat x77 64)) (sk_pub ex_ed) 9 (sk_comment ex_ed)) = Ok t.
Proof. eexists. split; [vm_compute; reflexivity|]. split; [discriminate|vm_compute; reflexivity]. Qed.

(** ** C94 *)
(** Errors whose message is made up by this crate, not by another one. *)
Definition own_text (e : error) : Prop :=
  match e with
  | EIo | EDecode | EUtf8 | EYubikeyPIVError PInternal | EFidoError FUnknown | EFidoError (FCborFormat _) => False
  | _ => True
  end.
Lemma decimal_then (m n : N) (a b : bytes) : decimal m ++ x3a :: a = decimal n ++ x3a :: b -> m = n /\ a = b.
Proof.
  intros E. assert (D : forall n, ~ In x3a (decimal n)).
  { intros k. destruct (decimal_digits _ _ (decimal_n k)) as (F & _). rewrite Forall_forall in F. intros H. apply F in H. vm_compute in H. destruct H. congruence. }
  apply split_at in E; auto. destruct E as [E ->]. split; [|reflexivity]. eapply decimal_same; [apply decimal_n|rewrite E; apply decimal_n].
Qed.
Lemma decimal_then_space (m n : N) (a b : bytes) : decimal m ++ x20 :: a = decimal n ++ x20 :: b -> m = n.
Proof.
  intros E. apply spaced_split in E; try (apply digits_plain, (decimal_digits _ _ (decimal_n _))).
  destruct E as [E _]. eapply decimal_same; [apply decimal_n|rewrite E; apply decimal_n].
Qed.
Lemma signer_error_inj a b : signer_error_display a = signer_error_display b -> a = b.
Proof.
  destruct a, b; cbn [signer_error_display]; intros E; try reflexivity; try discriminate E.
  - apply app_inv_head in E. apply app_inv_tail in E. congruence.
  - apply app_inv_head in E. congruence.
Qed.
Theorem C94_distinct_messages : forall (f g : bytes) (a b : error), own_text a -> own_text b ->
  error_display f a = error_display g b -> a = b.
Proof.
  intros f g a b.
  destruct a as [| | |n| | | | | |s|s l| | | |x|x| |[[n|]| | | |x| ]|[]| ]; cbn [own_text]; intros Ha; try destruct Ha;
  destruct b as [| | |n'| | | | | |s'|s' l'| | | |x'|x'| |[[n'|]| | | |x'| ]|[]| ]; cbn [own_text]; intros Hb; try destruct Hb;
    cbn [error_display fido_error_display piv_error_display]; intros E; try reflexivity; try discriminate E.
  - apply app_inv_head in E. f_equal. eapply decimal_same; [apply decimal_n|rewrite E; apply decimal_n].
  - apply app_inv_head, signer_error_inj in E. congruence.
  - apply app_inv_head in E. change (s2b ": ") with (x3a :: [x20]) in E. cbn [app] in E. apply decimal_then in E. destruct E as [E1 E2].
    injection E2 as E2. apply signer_error_inj in E2. apply Nat2N.inj in E1. congruence.
  - apply app_inv_head in E. congruence.
  - apply app_inv_head in E. congruence.
  - apply app_inv_head, app_inv_head in E. change (s2b " attempts remaining") with (x20 :: s2b "attempts remaining") in E.
    apply decimal_then_space in E. congruence.
Qed.
Print Assumptions C94_distinct_messages.

Example C94_distinct_case : own_text (EInvalidAllowedSigners (ASInvalidOption (s2b "x")) 3)
  /\ error_display [] (EInvalidAllowedSigners (ASInvalidOption (s2b "x")) 3)
     = s2b "Invalid allowed signer format on line 3: invalid option x"
  /\ error_display [] (EInvalidAllowedSigner (ASInvalidOption (s2b "x"))) = s2b "Invalid allowed signer format: invalid option x".
Proof. repeat split; vm_compute; reflexivity. Qed.

(** A text reported by the authenticator can repeat a message of the crate. *)
Theorem C94_distinct_for_all_refuted : exists a b f, a <> b /\ error_display f a = error_display f b.
Proof. exists (EFidoError FKeyLocked), (EFidoError (FCborFormat (s2b "Key locked"))), []. split; [discriminate|reflexivity]. Qed.
Print Assumptions C94_distinct_for_all_refuted.

(** The message for an allowed_signers file counts the lines before the rejected one and gives
    that line's reason. *)
Theorem C94_file_message : forall (tz : timezone) (s : bytes) (ls : list bytes) (f : bytes) (e : error),
  lines_of s ls -> signers_from_string tz s = Err e ->
  exists pre l post es t why d, ls = pre ++ l :: post /\ entries tz pre es /\ ~ no_entry l /\ stripped l t
    /\ rejected_line tz t why /\ decimal_text (Z.of_nat (length pre)) d
    /\ error_display f e = s2b "Invalid allowed signer format on line " ++ d ++ s2b ": " ++ signer_error_display why.
Proof.
  intros tz s ls f e Hl He. destruct (C66_file_is_its_lines tz s ls Hl) as (_ & H & _). apply H in He.
  destruct He as (pre & l & post & es & t & why & E1 & E2 & E3 & E4 & E5 & ->).
  exists pre, l, post, es, t, why, (decimal (N.of_nat (length pre))). repeat (split; [assumption|]). split; [|reflexivity].
  rewrite <- nat_N_Z. apply decimal_n.
Qed.
Print Assumptions C94_file_message.

(** So the number is not the usual one: the first line is "line 0". *)
Theorem C94_numbered_from_one_refuted : exists s e, lines_of s [s] /\ signers_from_string utc s = Err e
  /\ error_display [] e = s2b "Invalid allowed signer format on line 0: missing public key data".
Proof.
  exists (s2b "alice"), (EInvalidAllowedSigners ASMissingKey 0). split; [apply lines_iff; reflexivity|]. split; vm_compute; reflexivity.
Qed.
Print Assumptions C94_numbered_from_one_refuted.

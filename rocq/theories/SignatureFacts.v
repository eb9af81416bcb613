(** Lemmas about signature verification. *)
From Verif Require Import Base BaseFacts Utf8 Utf8Facts SpecWire Reader ReaderFacts KeyType
  KeyTypeFacts PubKeyType Writer WriterFacts WireFacts SpecKeys Crypto SpecSig PubKey PubKeyFacts Signature.

Lemma rsa_alg_of_iff n a : rsa_alg_of n = Ok a <-> rsa_label n a.
Proof.
  unfold rsa_alg_of. split.
  - destruct (bytes_eqb n (s2b "rsa-sha2-256")) eqn:E1; [apply bytes_eqb_eq in E1; intros [= <-]; subst; constructor|].
    destruct (bytes_eqb n (s2b "rsa-sha2-512")) eqn:E2; [apply bytes_eqb_eq in E2; intros [= <-]; subst; constructor|].
    destruct (bytes_eqb n (s2b "ssh-rsa")) eqn:E3; [|discriminate]. apply bytes_eqb_eq in E3. intros [= <-]; subst; constructor.
  - destruct 1; reflexivity.
Qed.
Lemma rsa_alg_not_panic n : rsa_alg_of n <> Panic.
Proof. unfold rsa_alg_of. repeat (destruct (bytes_eqb _ _)); discriminate. Qed.

Lemma ecdsa_alg_of_iff C n v l :
  ecdsa_label C n v l <-> exists a, ecdsa_alg_of n = Ok (a, l) /\ v = ecdsa_verify C a.
Proof.
  unfold ecdsa_alg_of. split.
  - destruct 1; eexists; split; reflexivity.
  - intros (a & H & ->). destruct (bytes_eqb n (s2b "ecdsa-sha2-nistp256")) eqn:E1.
    { apply bytes_eqb_eq in E1. cbn [orb] in H. injection H as <- <-. subst. constructor. }
    destruct (bytes_eqb n (s2b "sk-ecdsa-sha2-nistp256@openssh.com")) eqn:E2.
    { apply bytes_eqb_eq in E2. cbn [orb] in H. injection H as <- <-. subst. constructor. }
    destruct (bytes_eqb n (s2b "ecdsa-sha2-nistp384")) eqn:E3; [|discriminate].
    apply bytes_eqb_eq in E3. cbn [orb] in H. injection H as <- <-. subst. constructor.
Qed.
Lemma ecdsa_alg_not_panic n : ecdsa_alg_of n <> Panic.
Proof.
  unfold ecdsa_alg_of. destruct (bytes_eqb n _ || _); [discriminate|].
  destruct (bytes_eqb _ _); discriminate.
Qed.

Lemma ed25519_check_iff n u : ed25519_type_check n = Ok u <-> ed25519_label n.
Proof.
  unfold ed25519_type_check. destruct u. split.
  - destruct (bytes_eqb n (s2b "ssh-ed25519")) eqn:E1; [apply bytes_eqb_eq in E1; subst; constructor|].
    destruct (bytes_eqb n (s2b "sk-ssh-ed25519@openssh.com")) eqn:E2; [|discriminate].
    apply bytes_eqb_eq in E2; subst; constructor.
  - destruct 1; reflexivity.
Qed.
Lemma ed25519_check_not_panic n : ed25519_type_check n <> Panic.
Proof. unfold ed25519_type_check. repeat (destruct (bytes_eqb _ _)); discriminate. Qed.

Lemma check_iff b u : check b = Ok u <-> b = true.
Proof. destruct b, u; cbn; split; congruence. Qed.

(** ** Padding *)
Lemma from_be_zeros n l : from_be (repeat x00 n ++ l) = from_be l.
Proof.
  induction n as [|n IH]; [reflexivity|]. cbn [repeat app]. rewrite from_be_cons, IH.
  change (b2n x00) with 0%N. lia.
Qed.
Lemma fixed_bytes_iff len r b : no_lead_zero r ->
  (fixed_bytes len (magnitude r) b <-> length r <= len /\ b = repeat x00 (len - length r) ++ r).
Proof.
  intros Hr. unfold fixed_bytes. rewrite !magnitude_from_be. split.
  - intros [Hl Hv].
    assert (Hle : length r <= len).
    { destruct r as [|x r]; [cbn; lia|]. cbn [no_lead_zero] in Hr.
      pose proof (from_be_ge x r). pose proof (from_be_bound b). rewrite Hv, Hl in H0.
      assert ((256 ^ N.of_nat (length r) < 256 ^ N.of_nat len)%N) by nia.
      apply pow256_lt_inv in H1. cbn [length]. lia. }
    split; [exact Hle|]. apply from_be_inj.
    + rewrite app_length, repeat_length. lia.
    + rewrite from_be_zeros. exact Hv.
  - intros [Hl ->]. rewrite app_length, repeat_length, from_be_zeros. split; [lia|reflexivity].
Qed.

(** ** Parsing relations of the parts *)
Lemma parses_sk_message C app msg :
  parses (match app with Some a => read_sk_message C a msg | None => ret msg end)
    (fun m bs => match app with
       | None => m = msg /\ bs = []
       | Some a => exists flags counter, (counter < 2 ^ 32)%N /\ bs = flags :: to_be 4 counter
           /\ m = c_sha256 C a ++ [flags] ++ to_be 4 counter ++ c_sha256 C msg
       end).
Proof.
  destruct app as [a|]; [|apply parses_ret]. unfold read_sk_message.
  eapply parses_ext; [|apply parses_bind; [apply parses_read_raw; lia|intros f; apply parses_bind;
    [apply parses_lift|intros flags; apply parses_bind; [apply parses_read_u32|intros c; apply parses_ret]]]].
  intros m bs. cbn beta. split.
  - intros (f & b1 & b2 & -> & [Hf ->] & fl & b3 & b4 & -> & [Hi ->] & c & b5 & b6 & -> & [Hc ->] & -> & ->).
    destruct f as [|x [|? ?]]; try discriminate. cbn in Hi. injection Hi as <-.
    exists x, c. rewrite app_nil_r. split; [exact Hc|]. split; [reflexivity|].
    rewrite <- !app_assoc. reflexivity.
  - intros (fl & c & Hc & -> & ->). exists [fl], [fl], (to_be 4 c). split; [reflexivity|].
    split; [auto|]. exists fl, [], (to_be 4 c). split; [reflexivity|]. split; [auto|].
    exists c, (to_be 4 c), []. rewrite app_nil_r. split; [reflexivity|]. split; [auto|].
    rewrite <- !app_assoc. auto.
Qed.

Lemma signed_message_iff C app msg after m :
  signed_message C app msg after m <->
  exists b post, after = b ++ post /\
    match app with
       | None => m = msg /\ b = []
       | Some a => exists flags counter, (counter < 2 ^ 32)%N /\ b = flags :: to_be 4 counter
           /\ m = c_sha256 C a ++ [flags] ++ to_be 4 counter ++ c_sha256 C msg
       end.
Proof.
  unfold signed_message. destruct app as [a|].
  - split.
    + intros (fl & c & tl & -> & Hc & ->). exists (fl :: be32 c), tl. split; [reflexivity|].
      exists fl, c. rewrite be32_to_be. split; [|auto]. unfold u32_max in Hc.
      change (2 ^ 32)%N with 4294967296%N. lia.
    + intros (b & post & -> & fl & c & Hc & -> & ->). exists fl, c, post. rewrite be32_to_be.
      split; [reflexivity|]. split; [|reflexivity]. unfold u32_max.
      change (2 ^ 32)%N with 4294967296%N in Hc. lia.
  - split.
    + intros ->. exists [], after. auto.
    + intros (b & post & _ & -> & _). reflexivity.
Qed.

Lemma parses_rs inner r s :
  run (do! r <- read_positive_mpint; do! s <- read_positive_mpint; ret (r, s)) inner = Ok (r, s) <->
  exists b1 b2 tl, inner = b1 ++ b2 ++ tl /\ mpint_field r b1 /\ mpint_field s b2.
Proof.
  rewrite (run_parses _ _ inner (r, s)
    (parses_bind _ _ _ _ parses_read_positive_mpint (fun r => parses_bind _ _ _ _ parses_read_positive_mpint
       (fun s => parses_ret (r, s))))).
  split.
  - intros (bs & post & (a & b1 & b2 & -> & Ha & c & b3 & b4 & -> & Hc & [= -> ->] & ->) & ->).
    exists b1, b3, post. rewrite app_nil_r, <- app_assoc. split; [reflexivity|].
    split; apply mpint_field_iff; assumption.
  - intros (b1 & b2 & tl & -> & H1 & H2). apply mpint_field_iff in H1, H2.
    exists (b1 ++ b2), tl. split; [|rewrite <- app_assoc; reflexivity].
    exists r, b1, b2. split; [reflexivity|]. split; [exact H1|].
    exists s, b2, []. rewrite app_nil_r. auto.
Qed.

Lemma nopanic_sk_message C app msg :
  nopanic (match app with Some a => read_sk_message C a msg | None => ret msg end).
Proof.
  destruct app as [a|]; [|apply nopanic_ret]. intros r. unfold read_sk_message, mbind.
  rewrite read_raw_bytes_eq. destruct (_ <=? _) eqn:E1; [discriminate|].
  destruct (length (rest r) <? 1) eqn:E2; [discriminate|].
  assert (exists x, firstn 1 (rest r) = [x]) as [x ->].
  { destruct (rest r) as [|x l]; [discriminate|]. exists x. reflexivity. }
  cbn [lift index nth_error]. pose proof (nopanic_read_u32 (mkReader (r_inner r) (r_off r + 1))) as H.
  unfold lift, index. cbn [nth_error].
  destruct (read_u32 (mkReader (r_inner r) (r_off r + 1))) as [[c|e|] r']; cbn in *; congruence.
Qed.

Lemma check_not_panic b : check b <> Panic.
Proof. destruct b; discriminate. Qed.

Lemma verify_not_panic C buf msg k : verify_signature C buf msg k <> Panic.
Proof.
  unfold verify_signature. apply nopanic_run.
  apply nopanic_bind; [apply nopanic_read_string|intros v].
  apply nopanic_bind; [apply nopanic_lift, kt_from_name_not_panic|intros st].
  destruct (negb _); [apply nopanic_throw|].
  destruct (pk_kind k) as [e n|c key app|key app].
  - apply nopanic_bind; [apply nopanic_lift, rsa_alg_not_panic|intros a].
    apply nopanic_bind; [apply nopanic_read_bytes|intros sg].
    apply nopanic_bind; [apply nopanic_lift, check_not_panic|intros; apply nopanic_ret].
  - apply nopanic_bind; [apply nopanic_read_bytes|intros inner].
    apply nopanic_bind; [apply nopanic_lift, ecdsa_alg_not_panic|intros [a len]].
    apply nopanic_bind.
    { apply nopanic_lift, nopanic_run. apply nopanic_bind; [apply nopanic_read_mpint|intros].
      apply nopanic_bind; [apply nopanic_read_mpint|intros; apply nopanic_ret]. }
    intros [r s]. destruct (_ || _) eqn:E; [apply nopanic_throw|].
    apply orb_false_iff in E. destruct E as [E1 E2]. apply Nat.ltb_ge in E1, E2.
    rewrite (usub_ok _ _ E1), (usub_ok _ _ E2).
    apply nopanic_bind; [apply nopanic_lift; discriminate|intros].
    apply nopanic_bind; [apply nopanic_lift; discriminate|intros].
    apply nopanic_bind; [apply nopanic_sk_message|intros].
    apply nopanic_bind; [apply nopanic_lift, check_not_panic|intros; apply nopanic_ret].
  - apply nopanic_bind; [apply nopanic_lift, ed25519_check_not_panic|intros u].
    apply nopanic_bind; [apply nopanic_read_bytes|intros sg].
    apply nopanic_bind; [apply nopanic_sk_message|intros].
    apply nopanic_bind; [apply nopanic_lift, check_not_panic|intros; apply nopanic_ret].
Qed.

(** ** The whole function *)
Definition sm_rel C (app : option bytes) msg m b :=
  match app with
  | None => m = msg /\ b = []
  | Some a => exists flags counter, (counter < 2 ^ 32)%N /\ b = flags :: to_be 4 counter
      /\ m = c_sha256 C a ++ [flags] ++ to_be 4 counter ++ c_sha256 C msg
  end.

Lemma verify_iff C buf msg k out :
  verify_signature C buf msg k = Ok out <-> out = buf /\ accepted C k msg buf.
Proof.
  unfold verify_signature, accepted.
  destruct (pk_kind k) as [e n|c key app|key app].
  - (* RSA *)
    erewrite run_parses; [|
      apply parses_bind; [apply parses_read_string|intros v];
      apply parses_bind; [apply parses_lift|intros st];
      apply parses_if; intros _; [apply parses_throw|];
      apply parses_bind; [apply parses_lift|intros alg];
      apply parses_bind; [apply parses_read_bytes|intros sg];
      apply parses_bind; [apply parses_lift|intros u]; apply parses_ret].
    cbn beta. split.
    + intros (bs & post & (label & b1 & b2 & -> & [Hl ->] & st & b3 & b4 & -> & [Hst ->] & [[_ []]|[Hk H]]) & ->).
      destruct H as (alg & b5 & b6 & -> & [Ha ->] & sg & b7 & b8 & -> & [Hs ->] & u & b9 & b10 & -> & [Hv ->] & -> & ->).
      split; [rewrite ?app_nil_r; reflexivity|].
      exists label, sg, post, st. cbn [Datatypes.app]. rewrite ?app_nil_r, <- ?app_assoc, !field_enc, field_ok_fits.
      split; [reflexivity|]. split; [exact Hs|]. split; [exact Hst|].
      apply negb_false_iff, kt_kind_eqb_eq in Hk. split; [congruence|].
      apply kt_from_name_name in Hst. rewrite Hst in Ha. exists alg.
      split; [apply rsa_alg_of_iff, Ha|apply check_iff in Hv; exact Hv].
    + intros [-> (label & payload & after & st & -> & Hp & Hst & Hk & alg & Ha & Hv)].
      rewrite !field_enc in *. rewrite field_ok_fits in Hp.
      exists (enc_bytes label ++ enc_bytes payload), after. split; [|rewrite <- app_assoc; reflexivity].
      pose proof Hst as Hst'. apply kt_from_name_ok in Hst'. destruct Hst' as [Hin Hname].
      exists label, (enc_bytes label), (enc_bytes payload). split; [reflexivity|].
      split. { split; [|reflexivity]. rewrite Hname. split; [apply known_fits, Hin|apply known_utf8, Hin]. }
      exists st, [], (enc_bytes payload). split; [reflexivity|]. split; [auto|].
      right. split; [apply negb_false_iff, kt_kind_eqb_eq; congruence|].
      exists alg, [], (enc_bytes payload). split; [reflexivity|].
      split. { split; [|reflexivity]. rewrite <- Hname. apply rsa_alg_of_iff, Ha. }
      exists payload, (enc_bytes payload), []. rewrite app_nil_r. split; [reflexivity|]. split; [auto|].
      exists tt, [], []. split; [reflexivity|]. split; [|auto]. split; [apply check_iff, Hv|reflexivity].
  - (* ECDSA *)
    assert (P : parses (
        do! v <- read_string;
        do! sig_type <- lift (kt_from_name v);
        if negb (kt_kind_eqb (kt_k (pk_type k)) (kt_k sig_type)) then throw EKeyTypeMismatch else
        do! inner <- read_bytes;
        do! al <- lift (ecdsa_alg_of (kt_name sig_type));
        let (alg, len) := al in
        do! rs <- lift (run (do! r <- read_positive_mpint;
                             do! s <- read_positive_mpint;
                             ret (r, s)) inner);
        let (r_bytes, s_bytes) := rs in
        if (len <? length r_bytes) || (len <? length s_bytes)
        then throw EInvalidFormat else
        do! nr <- lift (usub len (length r_bytes));
        do! ns <- lift (usub len (length s_bytes));
        let sig := (repeat x00 nr ++ r_bytes) ++ (repeat x00 ns ++ s_bytes) in
        do! msg <- match app with
                   | Some a => read_sk_message C a msg
                   | None => ret msg
                   end;
        do! _ <- lift (check (ecdsa_verify C alg key msg sig));
        ret buf)
      (fun out bs => out = buf /\ exists label st payload b alg len r s m,
         bs = enc_bytes label ++ enc_bytes payload ++ b /\ fits payload
         /\ kt_from_name label = Ok st /\ kt_k st = kt_k (pk_type k)
         /\ ecdsa_alg_of label = Ok (alg, len)
         /\ run (do! r <- read_positive_mpint; do! s <- read_positive_mpint; ret (r, s)) payload = Ok (r, s)
         /\ length r <= len /\ length s <= len
         /\ sm_rel C app msg m b
         /\ ecdsa_verify C alg key m ((repeat x00 (len - length r) ++ r) ++ (repeat x00 (len - length s) ++ s)) = true)).
    { eapply parses_ext; [|
      apply parses_bind; [apply parses_read_string|intros v];
      apply parses_bind; [apply parses_lift|intros st];
      apply parses_if; intros _; [apply parses_throw|];
      apply parses_bind; [apply parses_read_bytes|intros inner];
      apply parses_bind with (Q := fun al out bs => exists r s nr ns m,
         run (do! r <- read_positive_mpint; do! s <- read_positive_mpint; ret (r, s)) inner = Ok (r, s)
         /\ length r <= snd al /\ length s <= snd al /\ nr = snd al - length r /\ ns = snd al - length s
         /\ sm_rel C app msg m bs
         /\ ecdsa_verify C (fst al) key m ((repeat x00 nr ++ r) ++ (repeat x00 ns ++ s)) = true
         /\ out = buf); [apply parses_lift|intros [alg len]]].
      - intros out' bs. cbn beta. split.
        + intros (label & b1 & b2 & -> & [Hl ->] & st & b3 & b4 & -> & [Hst ->] & [[_ []]|[Hk H]]).
          destruct H as (inner & b5 & b6 & -> & [Hi ->] & [alg len] & b7 & b8 & -> & [Ha ->]
            & r & s & nr & ns & m & Hrs & L1 & L2 & -> & -> & Hm & Hv & ->).
          split; [reflexivity|]. cbn [fst snd Datatypes.app] in *.
          apply negb_false_iff, kt_kind_eqb_eq in Hk.
          rewrite (kt_from_name_name _ _ Hst) in Ha.
          exists label, st, inner, b8, alg, len, r, s, m. auto 15.
        + intros (-> & label & st & payload & b & alg & len & r & s & m & -> & Hp & Hst & Hk & Ha & Hrs & L1 & L2 & Hm & Hv).
          pose proof Hst as Hst'. apply kt_from_name_ok in Hst'. destruct Hst' as [Hin Hname].
          exists label, (enc_bytes label), (enc_bytes payload ++ b). split; [reflexivity|].
          split. { split; [|reflexivity]. rewrite Hname. split; [apply known_fits, Hin|apply known_utf8, Hin]. }
          exists st, [], (enc_bytes payload ++ b). split; [reflexivity|]. split; [auto|].
          right. split; [apply negb_false_iff, kt_kind_eqb_eq; congruence|].
          exists payload, (enc_bytes payload), b. split; [reflexivity|]. split; [auto|].
          exists (alg, len), [], b. split; [reflexivity|]. split; [rewrite <- Hname; auto|].
          exists r, s, (len - length r), (len - length s), m. cbn [fst snd]. auto 10.
      - eapply parses_ext; [|
          apply parses_bind with (Q := fun rs out bs => exists m,
             length (fst rs) <= len /\ length (snd rs) <= len
             /\ sm_rel C app msg m bs
             /\ ecdsa_verify C alg key m ((repeat x00 (len - length (fst rs)) ++ fst rs) ++ (repeat x00 (len - length (snd rs)) ++ snd rs)) = true
             /\ out = buf); [apply parses_lift|intros [r s]]].
        + intros out' bs. cbn [fst snd]. split.
          * intros ([r s] & b1 & b2 & -> & [Hrs ->] & m & L1 & L2 & Hm & Hv & ->). cbn [Datatypes.app fst snd] in *.
            exists r, s, (len - length r), (len - length s), m. auto 10.
          * intros (r & s & nr & ns & m & Hrs & L1 & L2 & -> & -> & Hm & Hv & ->).
            exists (r, s), [], bs. split; [reflexivity|]. split; [auto|]. exists m. cbn [fst snd]. auto 10.
        + cbn [fst snd]. destruct ((len <? length r) || (len <? length s)) eqn:E.
          * eapply parses_ext; [|apply parses_throw]. intros out' bs. cbn beta. split; [tauto|].
            intros (m & L1 & L2 & _). apply orb_true_iff in E. rewrite !Nat.ltb_lt in E. lia.
          * apply orb_false_iff in E. destruct E as [E1 E2]. apply Nat.ltb_ge in E1, E2.
            rewrite (usub_ok _ _ E1), (usub_ok _ _ E2).
            eapply parses_ext; [|
              apply parses_bind; [apply parses_lift|intros nr];
              apply parses_bind; [apply parses_lift|intros ns];
              apply parses_bind; [apply parses_sk_message|intros m];
              apply parses_bind; [apply parses_lift|intros u]; apply parses_ret].
            intros out' bs. cbn beta zeta. split.
            -- intros (nr & b1 & b2 & -> & [[= <-] ->] & ns & b3 & b4 & -> & [[= <-] ->] & m & b5 & b6 & -> & Hm
                 & u & b7 & b8 & -> & [Hc ->] & -> & ->).
               apply check_iff in Hc. exists m. cbn [Datatypes.app]. rewrite ?app_nil_r. auto.
            -- intros (m & _ & _ & Hm & Hv & ->).
               exists (len - length r), [], bs. split; [reflexivity|]. split; [auto|].
               exists (len - length s), [], bs. split; [reflexivity|]. split; [auto|].
               exists m, bs, []. rewrite app_nil_r. split; [reflexivity|]. split; [exact Hm|].
               exists tt, [], []. split; [reflexivity|]. split; [|auto]. split; [apply check_iff, Hv|reflexivity]. }
    rewrite (run_parses _ _ buf out P). split.
    + intros (bs & post & (-> & label & st & payload & b & alg & len & r & s & m & -> & Hp & Hst & Hk & Ha & Hrs & L1 & L2 & Hm & Hv) & E).
      split; [reflexivity|]. exists label, payload, (b ++ post), st. rewrite !field_enc, field_ok_fits.
      split. { rewrite E, <- !app_assoc. reflexivity. }
      split; [exact Hp|]. split; [exact Hst|]. split; [exact Hk|].
      apply parses_rs in Hrs. destruct Hrs as (b1 & b2 & tl & -> & H1 & H2).
      exists (ecdsa_verify C alg), len, r, s, b1, b2, tl, (repeat x00 (len - length r) ++ r),
        (repeat x00 (len - length s) ++ s), m.
      split; [apply ecdsa_alg_of_iff; eauto|]. split; [reflexivity|]. split; [exact H1|]. split; [exact H2|].
      apply mpint_field_iff in H1, H2. destruct H1 as [[_ N1] _], H2 as [[_ N2] _].
      split; [apply fixed_bytes_iff; auto|]. split; [apply fixed_bytes_iff; auto|].
      split; [apply signed_message_iff; exists b, post; auto|exact Hv].
    + intros [-> (label & payload & after & st & E & Hp & Hst & Hk & verify & len & r & s & b1 & b2 & tl & fr & fs & m
        & Hl & -> & H1 & H2 & F1 & F2 & Hm & Hv)].
      rewrite !field_enc in E. rewrite field_ok_fits in Hp.
      apply signed_message_iff in Hm. destruct Hm as (b & post & -> & Hm).
      exists (enc_bytes label ++ enc_bytes (b1 ++ b2 ++ tl) ++ b), post.
      split; [|rewrite E, <- !app_assoc; reflexivity]. split; [reflexivity|].
      apply ecdsa_alg_of_iff in Hl. destruct Hl as (alg & Ha & ->).
      exists label, st, (b1 ++ b2 ++ tl), b, alg, len, r, s, m.
      split; [reflexivity|]. split; [exact Hp|]. split; [exact Hst|]. split; [exact Hk|]. split; [exact Ha|].
      assert (N1 : no_lead_zero r) by (apply mpint_field_iff in H1; apply H1).
      assert (N2 : no_lead_zero s) by (apply mpint_field_iff in H2; apply H2).
      apply fixed_bytes_iff in F1; [|exact N1]. apply fixed_bytes_iff in F2; [|exact N2].
      destruct F1 as [L1 ->], F2 as [L2 ->].
      split; [apply parses_rs; eauto 8|]. auto 10.
  - (* Ed25519 *)
    erewrite run_parses; [|
      apply parses_bind; [apply parses_read_string|intros v];
      apply parses_bind; [apply parses_lift|intros st];
      apply parses_if; intros _; [apply parses_throw|];
      apply parses_bind; [apply parses_lift|intros alg];
      apply parses_bind; [apply parses_read_bytes|intros sg];
      apply parses_bind; [apply parses_sk_message|intros m];
      apply parses_bind; [apply parses_lift|intros u]; apply parses_ret].
    cbn beta. split.
    + intros (bs & post & (label & b1 & b2 & -> & [Hl ->] & st & b3 & b4 & -> & [Hst ->] & [[_ []]|[Hk H]]) & ->).
      destruct H as (u & b5 & b6 & -> & [Ha ->] & sg & b7 & b8 & -> & [Hs ->] & m & b9 & b10 & -> & Hm & u' & b11 & b12 & -> & [Hv ->] & -> & ->).
      split; [rewrite ?app_nil_r; reflexivity|].
      exists label, sg, (b9 ++ post), st. cbn [Datatypes.app]. rewrite ?app_nil_r, <- ?app_assoc, !field_enc, field_ok_fits.
      split; [reflexivity|]. split; [exact Hs|]. split; [exact Hst|].
      apply negb_false_iff, kt_kind_eqb_eq in Hk. split; [congruence|].
      apply kt_from_name_name in Hst. rewrite Hst in Ha. exists m.
      split; [apply ed25519_check_iff in Ha; exact Ha|]. split; [|apply check_iff in Hv; exact Hv].
      apply signed_message_iff. exists b9, post. auto.
    + intros [-> (label & payload & after & st & -> & Hp & Hst & Hk & m & Ha & Hm & Hv)].
      rewrite !field_enc in *. rewrite field_ok_fits in Hp.
      apply signed_message_iff in Hm. destruct Hm as (b & post & -> & Hm).
      exists (enc_bytes label ++ enc_bytes payload ++ b), post. split; [|rewrite <- !app_assoc; reflexivity].
      pose proof Hst as Hst'. apply kt_from_name_ok in Hst'. destruct Hst' as [Hin Hname].
      exists label, (enc_bytes label), (enc_bytes payload ++ b). split; [reflexivity|].
      split. { split; [|reflexivity]. rewrite Hname. split; [apply known_fits, Hin|apply known_utf8, Hin]. }
      exists st, [], (enc_bytes payload ++ b). split; [reflexivity|]. split; [auto|].
      right. split; [apply negb_false_iff, kt_kind_eqb_eq; congruence|].
      exists tt, [], (enc_bytes payload ++ b). split; [reflexivity|].
      split. { split; [|reflexivity]. rewrite <- Hname. apply ed25519_check_iff, Ha. }
      exists payload, (enc_bytes payload), b. split; [reflexivity|]. split; [auto|].
      exists m, b, []. rewrite app_nil_r. split; [reflexivity|]. split; [exact Hm|].
      exists tt, [], []. split; [reflexivity|]. split; [|auto]. split; [apply check_iff, Hv|reflexivity].
Qed.

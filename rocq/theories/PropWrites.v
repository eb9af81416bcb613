(** What writing a key reports (C100). *)
From Verif Require Import Base BaseFacts KeyType PubKeyType Crypto PubKey PrivKey PropPrivKey Files.

Lemma written room r : 
  (fst (write_out room r) = Ok tt -> exists text, r = Ok text /\ snd (write_out room r) = text)
  /\ (forall text, r = Ok text -> exists done rest, text = done ++ rest /\ snd (write_out room r) = done
        /\ ((fst (write_out room r) = Ok tt /\ rest = []) \/ (fst (write_out room r) = Err EIo /\ rest <> []))).
Proof.
  unfold write_out, write_fmt. destruct r as [t|e|]; [|split; discriminate..]. split.
  - destruct (length t <=? room); cbn [fst snd]; [eauto|discriminate].
  - intros text [= <-]. destruct (length t <=? room) eqn:E; cbn [fst snd].
    + exists t, []. rewrite app_nil_r. auto.
    + exists (firstn room t), (skipn room t). rewrite firstn_skipn. split; [reflexivity|]. split; [reflexivity|].
      right. split; [reflexivity|]. intros Es. apply Nat.leb_gt in E. apply (f_equal (@length _)) in Es. rewrite skipn_length in Es.
      cbn [length] in Es. lia.
Qed.

(** Writing that reports success wrote the whole text of the key, and otherwise, if there is a text at
    all, a part of it was written and an I/O error is reported. *)
Theorem C100_reported : forall (room : nat) (k : privkey) (p : pubkey),
  (fst (sk_write_to room k) = Ok tt -> exists text, sk_write k = Ok text /\ snd (sk_write_to room k) = text)
  /\ (forall text, sk_write k = Ok text -> exists done rest, text = done ++ rest /\ snd (sk_write_to room k) = done
        /\ ((fst (sk_write_to room k) = Ok tt /\ rest = []) \/ (fst (sk_write_to room k) = Err EIo /\ rest <> [])))
  /\ (fst (pk_write_to room p) = Ok tt -> exists text, pk_write p = Ok text /\ snd (pk_write_to room p) = text)
  /\ (forall text, pk_write p = Ok text -> exists done rest, text = done ++ rest /\ snd (pk_write_to room p) = done
        /\ ((fst (pk_write_to room p) = Ok tt /\ rest = []) \/ (fst (pk_write_to room p) = Err EIo /\ rest <> []))).
Proof.
  intros room k p. destruct (written room (sk_write k)) as (A & E), (written room (pk_write p)) as (A' & E').
  exact (conj A (conj E (conj A' E'))).
Qed.
Print Assumptions C100_reported.
Example C100_case_reported : exists text, sk_write ex_ed = Ok text /\ fst (sk_write_to 1000 ex_ed) = Ok tt
  /\ fst (sk_write_to 100 ex_ed) = Err EIo /\ length (snd (sk_write_to 100 ex_ed)) = 100.
Proof. eexists. split; [vm_compute; reflexivity|]. vm_compute. auto. Qed.

(** Properties C15 and C16: base64. *)
From Verif Require Import Base BaseFacts Base64 SpecBase64 Base64Facts.

Theorem C15_base64_round_trip : forall b : bytes,
  b64_decode (b64_encode b) = Some b
  /\ base64_text b (b64_encode b)
  /\ length (b64_encode b) = 4 * ((length b + 2) / 3)
  /\ Forall (fun c => In c alphabet \/ c = x3d) (b64_encode b).
Proof.
  intros b. split; [apply b64_decode_encode|]. split; [apply b64_encode_text|].
  split; [apply b64_encode_length|].
  rewrite b64_encode_core. apply Forall_app. split.
  - pose proof (b64_core_chars b) as H. apply Forall_forall. intros c Hc.
    rewrite Forall_forall in H. destruct (H c Hc) as (v & Hv & ->). left.
    rewrite b64_char_nth by exact Hv. apply nth_In. change (length alphabet) with 64. lia.
  - apply Forall_forall. intros c Hc. apply repeat_spec in Hc. right. exact Hc.
Qed.
Print Assumptions C15_base64_round_trip.

Example C15_case : b64_encode (s2b "light w") = s2b "bGlnaHQgdw=="
  /\ b64_encode [xfb; xff] = s2b "+/8=" /\ b64_decode (s2b "+/8=") = Some [xfb; xff].
Proof. repeat split. Qed.

Theorem C16_base64_injective : forall (t1 t2 b : bytes),
  b64_decode t1 = Some b -> b64_decode t2 = Some b ->
  exists core k1 k2, t1 = core ++ repeat x3d k1 /\ t2 = core ++ repeat x3d k2
    /\ ~ In x3d core /\ k1 < 3 /\ k2 < 3
    (** accepted: the specified text, possibly with padding characters missing *)
    /\ exists k, base64_text b (t1 ++ repeat x3d k).
Proof.
  intros t1 t2 b H1 H2. pose proof (proj1 (b64_decode_iff t1 b) H1) as Hk. apply b64_decode_inv in H1, H2.
  destruct H1 as (k1 & L1 & E1), H2 as (k2 & L2 & E2). pose proof (npad_bound b).
  exists (b64_core b), k1, k2. split; [exact E1|]. split; [exact E2|].
  split; [apply b64_core_no_pad|]. split; [lia|]. split; [lia|exact Hk].
Qed.
Print Assumptions C16_base64_injective.

(** Conversely every such text is accepted and decodes to those bytes. *)
Theorem C16_base64_complete : forall (t b : bytes) (k : nat),
  base64_text b (t ++ repeat x3d k) -> b64_decode t = Some b.
Proof. intros t b k H. apply b64_decode_iff. eauto. Qed.
Print Assumptions C16_base64_complete.

(** Missing padding is accepted; nonzero trailing bits, data after padding, bad symbols
    and a single left-over symbol are not. *)
Example C16_case : b64_decode (s2b "+/8=") = Some [xfb; xff]
  /\ b64_decode (s2b "+/8") = Some [xfb; xff]
  /\ b64_decode (s2b "+/9=") = None /\ b64_decode (s2b "+/8=AAAA") = None
  /\ b64_decode (s2b "AA A") = None /\ b64_decode (s2b "AAAAA") = None.
Proof. repeat split. Qed.

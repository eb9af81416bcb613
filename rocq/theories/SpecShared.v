(** Specification of a YubiKey that other programs use at the same time (C143). *)
From Verif Require Import Base SpecPiv SpecPivCalls KeyType PubKeyType Crypto X509 Piv PivCalls.

(** What else happens to the outside, before each operation of the program: [W] is whatever decides it, for
    instance what another program has yet to do. *)
Definition world (S W : Type) : Type := S -> W -> S * W.
Definition lift_op {S W A} (E : world S W) (f : S -> A * S) (t : S * W) : A * (S * W) :=
  let e := E (fst t) (snd t) in (fst (f (fst e)), (snd (f (fst e)), snd e)).
(** The device as one of the programs sees it. *)
Definition shared {H S W} (E : world S W) (D : yubikey H S) : yubikey H (S * W) :=
  mkYubikey H (S * W)
    (y_serial D) (fun n => lift_op E (y_open D n)) (fun h => lift_op E (y_reconnect D h))
    (fun h p => lift_op E (y_verify_pin D h p)) (y_mgm_key D) (fun h k => lift_op E (y_authenticate D h k))
    (fun h sl => lift_op E (y_read D h sl)) (fun h sl a p u => lift_op E (y_generate D h sl a p u))
    (fun h sl n nm i => lift_op E (y_self_sign D h sl n nm i)) (fun h d a sl => lift_op E (y_sign D h d a sl))
    (lift_op E (y_open_any D)) (y_cert D) (fun h sl d => lift_op E (y_write D h sl d)) (fun h sl => lift_op E (y_attest D h sl)).

(** A schedule: the operations of other programs that come before each operation of this one. *)
Definition scheduled {H S} (D : yubikey H S) : world S (list (list (device_op H))) :=
  fun s w => match w with [] => (s, []) | os :: w => (effects D os s, w) end.
(** [c] consists of [a] and [b], each in its order. *)
Inductive merge {A} : list A -> list A -> list A -> Prop :=
| M_nil : merge [] [] []
| M_left x a b c : merge a b c -> merge (x :: a) b (x :: c)
| M_right x a b c : merge a b c -> merge a (x :: b) (x :: c).
(** The other programs leave a slot of a device alone. *)
Definition leaves {S W} (V : slots S) (E : world S W) (n : N) (sl : slot) : Prop :=
  forall s w, same_slot V s (fst (E s w)) n sl.
(** Operations that are not to change a slot of a device, and schedules of such operations. *)
Definition harmless {H S} (D : yubikey H S) (n : N) (sl : slot) (o : device_op H) : Prop := op_changes o <> Some sl \/ ~ on_device D n o.
Definition scheduled_but {H S} (D : yubikey H S) (n : N) (sl : slot) : world S (list (list {o : device_op H | harmless D n sl o})) :=
  fun s w => match w with [] => (s, []) | os :: w => (effects D (map (@proj1_sig _ _) os) s, w) end.

(** Specification of what memory holds after keys were used: values alone, and what is left in
    memory that was given back. *)
From Verif Require Import Base KeyType PubKeyType PrivKey Memory.

(** The same program over values. *)
Definition value_step (o : key_op) (vars : list (option privkey)) : list (option privkey) :=
  let change i f := match nth_error vars i with Some (Some k) => set_var i (f k) vars | _ => vars end in
  match o with
  | KNew k => vars ++ [Some k]
  | KClone i => match nth_error vars i with Some (Some k) => vars ++ [Some k] | _ => vars end
  | KPin i p => change i (fun k => Some (set_pin p k))
  | KPath i p => change i (fun k => Some (set_device_path p k))
  | KDrop i => change i (fun _ => None)
  end.
Definition value_run (ops : list key_op) : list (option privkey) := fold_left (fun v o => value_step o v) ops [].

(** PINs and paths that are replaced by others while the key lives. *)
Definition hw_data (k : privkey) : option hw_priv :=
  match sk_kind k with SkEcdsaSk h | SkEd25519Sk h => Some h | _ => None end.
Definition replaced_now (o : key_op) (vars : list (option privkey)) : list bytes :=
  let of i (f : hw_priv -> option bytes) :=
    match nth_error vars i with
    | Some (Some k) => match hw_data k with Some h => match f h with Some b => [b] | None => [] end | None => [] end
    | _ => []
    end in
  match o with KPin i _ => of i hw_pin | KPath i _ => of i hw_device_path | _ => [] end.
Fixpoint replaced (ops : list key_op) (vars : list (option privkey)) : list bytes :=
  match ops with [] => [] | o :: ops => replaced_now o vars ++ replaced ops (value_step o vars) end.

(** What memory that was given back still holds; zeros do not count. *)
Definition zeros (b : bytes) : bool := forallb (fun x => Byte.eqb x x00) b.
Definition leftovers (m : heap) : list bytes :=
  filter (fun b => negb (zeros b)) (map bl_bytes (filter (fun b => negb (bl_live b)) m)).

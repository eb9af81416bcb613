(** The buffers that private keys own: privkey.rs 38-151 (the fields and their [Zeroize]),
    [set_pin], [set_device_path], [Clone] and [Drop]. Definitions only.
    Left out: the public key, names and comments (not secret), and the temporary copies made while
    reading, writing and signing. Memory that was given back is not used again here; an
    allocator that does can only overwrite more. *)
From Verif Require Import Base KeyType PubKeyType PrivKey.

(** A buffer of a [Vec<u8>] or [String]; it keeps its contents when it is given back. *)
Record block := mkBlock { bl_live : bool; bl_bytes : bytes }.
Definition heap := list block.
Fixpoint update (a : nat) (f : block -> block) (h : heap) : heap :=
  match h, a with
  | [], _ => []
  | b :: h', O => f b :: h'
  | b :: h', S a' => b :: update a' f h'
  end.
Definition alloc (c : bytes) (h : heap) : nat * heap := (length h, h ++ [mkBlock true c]).
(** zeroize crate, [Vec::zeroize] and [String::zeroize]: zeros up to the capacity. *)
Definition wipe_block (b : block) : block := mkBlock (bl_live b) (repeat x00 (length (bl_bytes b))).
Definition free_block (b : block) : block := mkBlock false (bl_bytes b).

(** privkey.rs 129-151 [PrivateKeyKind] over the buffers of its fields; 38-127. keytype.rs 65-74: a
    [Curve] has no buffer. *)
Inductive kind_over (A : Type) :=
| MRsa (n e d coefficient p q : A) (exp exq : option A)
| MEcdsa (curve : curve) (key : A)
| MEcdsaSk (flags : byte) (handle reserved : A) (pin path : option A)
| MEd25519 (key : A)
| MEd25519Sk (flags : byte) (handle reserved : A) (pin path : option A).
Arguments MRsa {A}. Arguments MEcdsa {A}. Arguments MEcdsaSk {A}. Arguments MEd25519 {A}. Arguments MEd25519Sk {A}.
Definition opt_list {A} (o : option A) : list A := match o with Some a => [a] | None => [] end.
(** The fields that [derive(Zeroize)] visits, in order, apart from flags and curves. *)
Definition buffers {A} (k : kind_over A) : list A :=
  match k with
  | MRsa n e d c p q exp exq => [n; e; d; c; p; q] ++ opt_list exp ++ opt_list exq
  | MEcdsa _ key => [key]
  | MEcdsaSk _ h r pin path | MEd25519Sk _ h r pin path => [h; r] ++ opt_list pin ++ opt_list path
  | MEd25519 key => [key]
  end.

(** A key in memory: what is not a secret as a value. *)
Record mem_key := mkMemKey {
  mk_type : key_type; mk_kind : kind_over nat; mk_pub : pubkey; mk_magic : N; mk_comment : bytes
}.
(** The variables that hold keys ([None] once dropped), and the memory. *)
Definition store := (list (option mem_key) * heap)%type.

(** Allocating the fields one by one. *)
Definition alloc_opt (o : option bytes) (h : heap) : option nat * heap :=
  match o with Some c => let '(a, h) := alloc c h in (Some a, h) | None => (None, h) end.
Definition place_hw (h : hw_priv) (m : heap) : (nat * nat * option nat * option nat) * heap :=
  let '(a, m) := alloc (hw_handle h) m in
  let '(r, m) := alloc (hw_reserved h) m in
  let '(pin, m) := alloc_opt (hw_pin h) m in
  let '(path, m) := alloc_opt (hw_device_path h) m in ((a, r, pin, path), m).
Definition place_kind (k : priv_kind) (m : heap) : kind_over nat * heap :=
  match k with
  | SkRsa r =>
      let '(n, m) := alloc (rp_n r) m in
      let '(e, m) := alloc (rp_e r) m in
      let '(d, m) := alloc (rp_d r) m in
      let '(c, m) := alloc (rp_coefficient r) m in
      let '(p, m) := alloc (rp_p r) m in
      let '(q, m) := alloc (rp_q r) m in
      let '(exp, m) := alloc_opt (rp_exp r) m in
      let '(exq, m) := alloc_opt (rp_exq r) m in (MRsa n e d c p q exp exq, m)
  | SkEcdsa c key => let '(a, m) := alloc key m in (MEcdsa c a, m)
  | SkEcdsaSk h => let '(a, r, pin, path, m) := place_hw h m in (MEcdsaSk (hw_flags h) a r pin path, m)
  | SkEd25519 key => let '(a, m) := alloc key m in (MEd25519 a, m)
  | SkEd25519Sk h => let '(a, r, pin, path, m) := place_hw h m in (MEd25519Sk (hw_flags h) a r pin path, m)
  end.
Definition place (k : privkey) (m : heap) : mem_key * heap :=
  let '(kind, m) := place_kind (sk_kind k) m in
  (mkMemKey (sk_type k) kind (sk_pub k) (sk_magic k) (sk_comment k), m).

(** The contents behind an address, to copy them. *)
Definition contents (m : heap) (a : nat) : bytes := match nth_error m a with Some b => bl_bytes b | None => [] end.
Definition load_hw (m : heap) (flags : byte) (h r : nat) (pin path : option nat) : hw_priv :=
  mkHw flags (contents m h) (contents m r) (option_map (contents m) pin) (option_map (contents m) path).
Definition load_kind (m : heap) (k : kind_over nat) : priv_kind :=
  match k with
  | MRsa n e d c p q exp exq =>
      SkRsa (mkRsaPriv (contents m n) (contents m e) (contents m d) (contents m c) (contents m p) (contents m q)
               (option_map (contents m) exp) (option_map (contents m) exq))
  | MEcdsa c key => SkEcdsa c (contents m key)
  | MEcdsaSk f h r pin path => SkEcdsaSk (load_hw m f h r pin path)
  | MEd25519 key => SkEd25519 (contents m key)
  | MEd25519Sk f h r pin path => SkEd25519Sk (load_hw m f h r pin path)
  end.
Definition load (m : heap) (k : mem_key) : privkey :=
  mkPrivKey (mk_type k) (load_kind m (mk_kind k)) (mk_pub k) (mk_magic k) (mk_comment k).

(** Giving back an [Option<String>] that is overwritten: no [Zeroize]. *)
Definition free_opt (o : option nat) (m : heap) : heap :=
  match o with Some a => update a free_block m | None => m end.
Definition with_mkind (k : mem_key) (kind : kind_over nat) : mem_key :=
  mkMemKey (mk_type k) kind (mk_pub k) (mk_magic k) (mk_comment k).
(** privkey.rs 622-632 [set_pin] *)
Definition mem_set_pin (pin : bytes) (k : mem_key) (m : heap) : mem_key * heap :=
  match mk_kind k with
  | MEcdsaSk f h r old path => let '(a, m) := alloc pin m in (with_mkind k (MEcdsaSk f h r (Some a) path), free_opt old m)
  | MEd25519Sk f h r old path => let '(a, m) := alloc pin m in (with_mkind k (MEd25519Sk f h r (Some a) path), free_opt old m)
  | _ => (k, m)
  end.
(** privkey.rs 636-646 [set_device_path] *)
Definition mem_set_path (path : bytes) (k : mem_key) (m : heap) : mem_key * heap :=
  match mk_kind k with
  | MEcdsaSk f h r pin old => let '(a, m) := alloc path m in (with_mkind k (MEcdsaSk f h r pin (Some a)), free_opt old m)
  | MEd25519Sk f h r pin old => let '(a, m) := alloc path m in (with_mkind k (MEd25519Sk f h r pin (Some a)), free_opt old m)
  | _ => (k, m)
  end.
(** privkey.rs 737-741 [Drop]: the fields are wiped, then given back. *)
Definition mem_drop (k : mem_key) (m : heap) : heap :=
  let m := fold_left (fun m a => update a wipe_block m) (buffers (mk_kind k)) m in
  fold_left (fun m a => update a free_block m) (buffers (mk_kind k)) m.

(** What a program does with its keys: a new one (read, parsed or generated), [clone] (derived,
    130 and 145), changes, [drop]. The numbers are those of the variables. *)
Inductive key_op := KNew (k : privkey) | KClone (i : nat) | KPin (i : nat) (pin : bytes) | KPath (i : nat) (path : bytes) | KDrop (i : nat).
Definition set_var {A} (i : nat) (x : A) (l : list A) : list A := firstn i l ++ x :: skipn (S i) l.
(** An operation on a variable that holds no key does not compile; here it does nothing. *)
Definition mem_step (o : key_op) (s : store) : store :=
  let '(vars, m) := s in
  match o with
  | KNew k => let '(k, m) := place k m in (vars ++ [Some k], m)
  | KClone i =>
      match nth_error vars i with
      | Some (Some k) => let '(k', m) := place (load m k) m in (vars ++ [Some k'], m)
      | _ => s
      end
  | KPin i p =>
      match nth_error vars i with
      | Some (Some k) => let '(k, m) := mem_set_pin p k m in (set_var i (Some k) vars, m)
      | _ => s
      end
  | KPath i p =>
      match nth_error vars i with
      | Some (Some k) => let '(k, m) := mem_set_path p k m in (set_var i (Some k) vars, m)
      | _ => s
      end
  | KDrop i =>
      match nth_error vars i with
      | Some (Some k) => (set_var i None vars, mem_drop k m)
      | _ => s
      end
  end.
Definition mem_run (ops : list key_op) : store := fold_left (fun s o => mem_step o s) ops ([], []).

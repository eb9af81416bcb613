(** Specification of authenticator data (WebAuthn section 6.1), of the CBOR it holds
    (RFC 8949) and of the COSE key map (RFC 8152 section 7), without the model's parsers. *)
From Verif Require Import Base SpecWire Fido SpecSigner.

(** A head: three bits of major type and an argument, in one of five widths. *)
Inductive head_of (major arg : N) : bytes -> Prop :=
| H_short b : (arg < 24)%N -> Byte.to_N b = (32 * major + arg)%N -> head_of major arg [b]
| H_long b info rest : In (info, length rest) [(24%N, 1); (25%N, 2); (26%N, 4); (27%N, 8)] ->
    Byte.to_N b = (32 * major + info)%N -> magnitude rest = arg -> head_of major arg (b :: rest).
(** Integers; the negative ones below -2^63 are left out. *)
Inductive int_of (z : Z) : bytes -> Prop :=
| I_pos bs : (0 <= z)%Z -> head_of 0 (Z.to_N z) bs -> int_of z bs
| I_neg bs : (- 2 ^ 63 <= z < 0)%Z -> head_of 1 (Z.to_N (-1 - z)) bs -> int_of z bs.
Definition string_of (s bs : bytes) : Prop := exists h, head_of 2 (size s) h /\ bs = h ++ s.

(** Entries of a COSE key map. *)
Inductive item :=
| Kty (v : Z)
| Alg (v : Z)
| Crv (v : Z)
| Coord (label : Z) (s : bytes)
| Unknown (label : Z).
Inductive item_of : item -> bytes -> Prop :=
| IO_kty v a b : int_of 1 a -> int_of v b -> item_of (Kty v) (a ++ b)
| IO_alg v a b : int_of 3 a -> int_of v b -> item_of (Alg v) (a ++ b)
| IO_crv v a b : int_of (-1) a -> int_of v b -> item_of (Crv v) (a ++ b)
| IO_coord k s a b : k = (-2)%Z \/ k = (-3)%Z -> int_of k a -> string_of s b -> item_of (Coord k s) (a ++ b)
(* other labels: only with the value [undefined] *)
| IO_unknown k a : ~ In k [1; 3; -1; -2; -3]%Z -> int_of k a -> item_of (Unknown k) (a ++ [xf7]).
Inductive items_of : list item -> bytes -> Prop :=
| Is_nil : items_of [] []
| Is_cons i is a b : item_of i a -> items_of is b -> items_of (i :: is) (a ++ b).
(** A definite map of at most 256 entries. *)
Definition map_of (is : list item) (bs : bytes) : Prop :=
  length is <= 256 /\ exists h b, head_of 5 (N.of_nat (length is)) h /\ items_of is b /\ bs = h ++ b.

(** The last entry of each kind counts. *)
Fixpoint last_some {A} (f : item -> option A) (is : list item) : option A :=
  match is with
  | [] => None
  | i :: is' => match last_some f is' with Some a => Some a | None => f i end
  end.
Definition kty_of (i : item) := match i with Kty v => Some v | _ => None end.
Definition alg_of (i : item) := match i with Alg v => Some v | _ => None end.
Definition crv_of (i : item) := match i with Crv v => Some v | _ => None end.
Definition coord_of (i : item) := match i with Coord _ s => Some s | _ => None end.
Definition or_else {A} (o : option A) (d : A) : A := match o with Some a => a | None => d end.
Definition key_of (is : list item) (k : cose_key) : Prop :=
  ck_type k = or_else (last_some kty_of is) 0%Z
  /\ ck_algorithm k = or_else (last_some alg_of is) 0%Z
  /\ ck_key k = or_else (last_some coord_of is) []
  /\ match last_some crv_of is with
     | Some v => exists t, decimal_text v t /\ ck_parameters k = [((-1)%Z, t)]
     | None => ck_parameters k = []
     end.

(** The attested-data flag: bit 6. *)
Definition attested (flags : byte) : Prop := N.testbit (Byte.to_N flags) 6 = true.
(** Authenticator data; bytes behind the map are ignored. *)
Definition auth_layout (raw : bytes) (a : auth_data) : Prop :=
  exists count len is map extra,
    raw = ad_rpid_hash a ++ [ad_flags a] ++ count ++ ad_aaguid a ++ len ++ ad_credential_id a ++ map ++ extra
    /\ length (ad_rpid_hash a) = 32 /\ attested (ad_flags a)
    /\ length count = 4 /\ magnitude count = ad_sign_count a
    /\ length (ad_aaguid a) = 16
    /\ length len = 2 /\ magnitude len = size (ad_credential_id a)
    /\ map_of is map /\ key_of is (ad_cose_key a).

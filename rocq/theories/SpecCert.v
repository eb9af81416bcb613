(** Specification of the OpenSSH certificate format (PROTOCOL.certkeys), as relations
    between field values and bytes. Only the data types come from the model. *)
From Verif Require Import Base SpecWire SpecKeys KeyType PubKeyType Cert.

(** A text field. *)
Definition text_ok (s : bytes) : Prop := utf8_text s /\ field_ok s.

(** The content of the principals field: the fields one after the other. *)
Definition principals_data (ps : list bytes) (bs : bytes) : Prop :=
  Forall text_ok ps /\ bs = concat (map field ps).

(** An option value: an empty field is the empty string (a flag); otherwise the field
    holds another string field (bytes after that one are ignored). *)
Inductive option_value : bytes -> bytes -> Prop :=
| OV_flag : option_value [] (field [])
| OV_text v tl : text_ok v -> field_ok (field v ++ tl) -> option_value v (field (field v ++ tl)).

(** The content of the critical options and extensions fields. *)
Inductive options_data : list (bytes * bytes) -> bytes -> Prop :=
| OD_nil : options_data [] []
| OD_cons name v b l bs : text_ok name -> option_value v b -> options_data l bs ->
    options_data ((name, v) :: l) (field name ++ b ++ bs).

(** The map listed by [entries]: each name once, with its last value. *)
Definition map_of (entries m : list (bytes * bytes)) : Prop :=
  NoDup (map fst m)
  /\ forall k v, In (k, v) m <->
       exists pre post, entries = pre ++ (k, v) :: post /\ ~ In k (map fst post).

(** Maps are equal when they have the same entries. *)
Definition same_map (a b : list (bytes * bytes)) : Prop := forall k v, In (k, v) a <-> In (k, v) b.

Definition type_number (t : cert_type) : N := match t with User => 1 | Host => 2 end.

(** The type under which the certified key is held. *)
Definition plain_type_of (kt p : key_type) : Prop := kt_from_name (kt_plain kt) = Ok p.

(** [signed_part c bs]: [bs] is the part of a certificate that is covered by the CA's
    signature, and [c] holds the values of its fields. *)
Definition signed_part (c : cert) (bs : bytes) : Prop :=
  exists kd pb co cb ex eb skd skpost,
    kt_from_name (kt_name (ct_key_type c)) = Ok (ct_key_type c) /\ kt_is_cert (ct_key_type c) = true
    /\ plain_type_of (ct_key_type c) (pk_type (ct_key c)) /\ pk_comment (ct_key c) = None
    /\ key_data (pk_type (ct_key c)) (pk_kind (ct_key c)) kd
    /\ (ct_serial c <= u64_max)%N /\ (ct_valid_after c <= u64_max)%N /\ (ct_valid_before c <= u64_max)%N
    /\ text_ok (ct_key_id c) /\ field_ok (ct_nonce c) /\ field_ok (ct_reserved c)
    /\ principals_data (ct_principals c) pb /\ field_ok pb
    /\ options_data co cb /\ field_ok cb /\ map_of co (ct_critical_options c)
    /\ options_data ex eb /\ field_ok eb /\ map_of ex (ct_extensions c)
    /\ kt_from_name (kt_name (pk_type (ct_signature_key c))) = Ok (pk_type (ct_signature_key c))
    /\ pk_comment (ct_signature_key c) = None
    /\ key_data (pk_type (ct_signature_key c)) (pk_kind (ct_signature_key c)) skd
    /\ field_ok (field (kt_name (pk_type (ct_signature_key c))) ++ skd ++ skpost)
    /\ bs = field (kt_name (ct_key_type c)) ++ field (ct_nonce c) ++ kd
         ++ be64 (ct_serial c) ++ be32 (type_number (ct_cert_type c)) ++ field (ct_key_id c) ++ field pb
         ++ be64 (ct_valid_after c) ++ be64 (ct_valid_before c) ++ field cb ++ field eb
         ++ field (ct_reserved c)
         ++ field (field (kt_name (pk_type (ct_signature_key c))) ++ skd ++ skpost).

(** The fields covered by the signature agree. *)
Definition same_signed_fields (a b : cert) : Prop :=
  ct_key_type a = ct_key_type b /\ ct_nonce a = ct_nonce b /\ ct_key a = ct_key b
  /\ ct_serial a = ct_serial b /\ ct_cert_type a = ct_cert_type b /\ ct_key_id a = ct_key_id b
  /\ ct_principals a = ct_principals b /\ ct_valid_after a = ct_valid_after b
  /\ ct_valid_before a = ct_valid_before b /\ same_map (ct_critical_options a) (ct_critical_options b)
  /\ same_map (ct_extensions a) (ct_extensions b) /\ ct_reserved a = ct_reserved b
  /\ ct_signature_key a = ct_signature_key b.

(** ** Certificates under construction *)

(** What the Rust types guarantee about the fields: integers of 64 bits, UTF-8
    strings, maps with distinct names. *)
Definition text_map (m : list (bytes * bytes)) : Prop :=
  NoDup (map fst m) /\ Forall (fun e => utf8_text (fst e) /\ utf8_text (snd e)) m.
Definition well_typed (c : cert) : Prop :=
  (ct_serial c <= u64_max)%N /\ (ct_valid_after c <= u64_max)%N /\ (ct_valid_before c <= u64_max)%N
  /\ utf8_text (ct_key_id c) /\ Forall utf8_text (ct_principals c)
  /\ text_map (ct_critical_options c) /\ text_map (ct_extensions c).

(** A key of a supported type whose data can be put on the wire. *)
Definition encodable (k : pubkey) : Prop :=
  kt_from_name (kt_name (pk_type k)) = Ok (pk_type k)
  /\ exists kind data, same_material (pk_kind k) kind /\ key_data (pk_type k) kind data.

(** [c] comes out of the builder. *)
Definition under_construction (c : cert) : Prop :=
  exists nonce_rng serial_rng pub t ca ops c0,
    builder nonce_rng serial_rng pub t ca = Ok c0 /\ c = apply_ops c0 ops
    /\ encodable pub /\ encodable ca.

(** The key [p] is [k] on the wire: plain type name, same material, no comment. *)
Definition key_on_wire (k p : pubkey) : Prop :=
  kt_from_name (kt_plain (pk_type k)) = Ok (pk_type p) /\ same_material (pk_kind k) (pk_kind p)
  /\ pk_comment p = None.

(** [p] holds what was requested by [c]. *)
Definition as_requested (c p : cert) : Prop :=
  ct_key_type p = ct_key_type c /\ ct_nonce p = ct_nonce c /\ key_on_wire (ct_key c) (ct_key p)
  /\ ct_serial p = ct_serial c /\ ct_cert_type p = ct_cert_type c /\ ct_key_id p = ct_key_id c
  /\ ct_principals p = ct_principals c /\ ct_valid_after p = ct_valid_after c
  /\ ct_valid_before p = ct_valid_before c
  /\ same_map (ct_critical_options p) (ct_critical_options c)
  /\ same_map (ct_extensions p) (ct_extensions c)
  /\ ct_reserved p = [] /\ key_on_wire (ct_signature_key c) (ct_signature_key p).

(** Two certificates under construction that ask for the same thing. *)
Definition same_key (a b : pubkey) : Prop :=
  kt_plain (pk_type a) = kt_plain (pk_type b)
  /\ exists kind, same_material (pk_kind a) kind /\ same_material (pk_kind b) kind.
Definition same_request (a b : cert) : Prop :=
  ct_key_type a = ct_key_type b /\ ct_nonce a = ct_nonce b /\ same_key (ct_key a) (ct_key b)
  /\ ct_serial a = ct_serial b /\ ct_cert_type a = ct_cert_type b /\ ct_key_id a = ct_key_id b
  /\ ct_principals a = ct_principals b /\ ct_valid_after a = ct_valid_after b
  /\ ct_valid_before a = ct_valid_before b
  /\ same_map (ct_critical_options a) (ct_critical_options b)
  /\ same_map (ct_extensions a) (ct_extensions b)
  /\ same_key (ct_signature_key a) (ct_signature_key b).

(** Number of bytes of the entries of an option map. *)
Fixpoint options_size (m : list (bytes * bytes)) : N :=
  match m with
  | [] => 0
  | (k, v) :: m' =>
      (4 + size k + (4 + match v with [] => 0 | _ => 4 + size v end) + options_size m')%N
  end.

(** The last of [l] that has an effect decides; without one the initial value stays. *)
Definition last_effect {O V} (eff : O -> V -> Prop) (init : V) (l : list O) (v : V) : Prop :=
  (v = init /\ forall o v', In o l -> ~ eff o v')
  \/ exists pre o post, l = pre ++ o :: post /\ eff o v /\ forall o' v', In o' post -> ~ eff o' v'.

(** Presence and value of a name in a map. *)
Definition holds (m : list (bytes * bytes)) (k : bytes) (v : option bytes) : Prop :=
  match v with
  | Some v => In (k, v) m
  | None => ~ In k (map fst m)
  end.
(** Effect of one builder call on the critical option [k], on the extension [k]. *)
Inductive option_effect (k : bytes) : build_op -> option bytes -> Prop :=
| OE_add v : option_effect k (OpCriticalOption k v) (Some v)
| OE_set m v : holds m k v -> option_effect k (OpSetCriticalOptions m) v.
Inductive extension_effect (k : bytes) : build_op -> option bytes -> Prop :=
| EE_add v : extension_effect k (OpExtension k v) (Some v)
| EE_set m v : holds m k v -> extension_effect k (OpSetExtensions m) v.
(** Principals: a whole list, or one more at the end. *)
Definition sets_principals (o : build_op) (l : list bytes) : Prop := o = OpSetPrincipals l.
Inductive added_principals : list build_op -> list bytes -> Prop :=
| AP_nil : added_principals [] []
| AP_add s l ps : added_principals l ps -> added_principals (OpPrincipal s :: l) (s :: ps)
| AP_other o l ps : (forall s, o <> OpPrincipal s) -> added_principals l ps -> added_principals (o :: l) ps.
(** The maps handed over are maps: no name twice. *)
Definition op_ok (o : build_op) : Prop :=
  match o with
  | OpSetCriticalOptions m | OpSetExtensions m => NoDup (map fst m)
  | _ => True
  end.

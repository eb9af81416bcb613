(** Specification of certificates that are read, changed and signed again. *)
From Verif Require Import Base SpecWire SpecKeys SpecCert KeyType PubKeyType Cert.

(** A builder call with values of the Rust types. *)
Definition call_ok (o : build_op) : Prop :=
  match o with
  | OpSerial n | OpValidAfter n | OpValidBefore n => (n <= u64_max)%N
  | OpKeyId s | OpPrincipal s | OpComment s => utf8_text s
  | OpSetPrincipals l => Forall utf8_text l
  | OpCriticalOption k v | OpExtension k v => utf8_text k /\ utf8_text v
  | OpSetCriticalOptions m | OpSetExtensions m => text_map m
  end.

(** Options with nothing that is ignored: the empty value is an empty field, another value is a
    field that holds one string and no more. *)
Inductive plain_options : list (bytes * bytes) -> bytes -> Prop :=
| PO_nil : plain_options [] []
| PO_flag name l bs : plain_options l bs -> plain_options ((name, []) :: l) (field name ++ field [] ++ bs)
| PO_text name v l bs : v <> [] -> plain_options l bs ->
    plain_options ((name, v) :: l) (field name ++ field (field v) ++ bs).

(** [signed_part c bs], with the parts that the certificate does not keep: the options and
    extensions as they are listed ([co], [ex]) and written ([cb], [eb]), and what follows the CA
    key in its field ([skpost]). *)
Definition signed_layout (c : cert) (co : list (bytes * bytes)) (cb : bytes) (ex : list (bytes * bytes)) (eb skpost bs : bytes) : Prop :=
  exists kd pb skd,
    kt_from_name (kt_name (ct_key_type c)) = Ok (ct_key_type c) /\ kt_is_cert (ct_key_type c) = true
    /\ plain_type_of (ct_key_type c) (pk_type (ct_key c)) /\ pk_comment (ct_key c) = None
    /\ key_data (pk_type (ct_key c)) (pk_kind (ct_key c)) kd
    /\ (ct_serial c <= u64_max)%N /\ (ct_valid_after c <= u64_max)%N /\ (ct_valid_before c <= u64_max)%N
    /\ text_ok (ct_key_id c) /\ field_ok (ct_nonce c) /\ field_ok (ct_reserved c)
    /\ principals_data (ct_principals c) pb /\ field_ok pb
    /\ options_data co cb /\ field_ok cb /\ map_of co (ct_critical_options c)
    /\ options_data ex eb /\ field_ok eb /\ map_of ex (ct_extensions c)
    /\ kt_from_name (kt_name (pk_type (ct_signature_key c))) = Ok (pk_type (ct_signature_key c))
    /\ pk_comment (ct_signature_key c) = None
    /\ key_data (pk_type (ct_signature_key c)) (pk_kind (ct_signature_key c)) skd
    /\ field_ok (field (kt_name (pk_type (ct_signature_key c))) ++ skd ++ skpost)
    /\ bs = field (kt_name (ct_key_type c)) ++ field (ct_nonce c) ++ kd
         ++ be64 (ct_serial c) ++ be32 (type_number (ct_cert_type c)) ++ field (ct_key_id c) ++ field pb
         ++ be64 (ct_valid_after c) ++ be64 (ct_valid_before c) ++ field cb ++ field eb
         ++ field (ct_reserved c)
         ++ field (field (kt_name (pk_type (ct_signature_key c))) ++ skd ++ skpost).

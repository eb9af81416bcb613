(** src/utils.rs: converting DER signatures to SSH signature blobs. Definitions only. *)
From Verif Require Import Base KeyType PubKeyType Writer.

(** utils.rs 5-34 [asn_der_to_r_s]. Slices and indices panic when out of range. *)
Definition asn_der_to_r_s (buf : bytes) : res (option (bytes * bytes)) :=
  if length buf <? 4 then Ok None else
  do? b0 <- index buf 0;
  if negb (b2n b0 =? 48)%N then Ok None else
  do? b2 <- index buf 2;
  if negb (b2n b2 =? 2)%N then Ok None else
  do? buf <- slice_from buf 3;
  do? rl <- index buf 0;
  let r_length := N.to_nat (b2n rl) in
  if length buf <? r_length + 2 then Ok None else
  do? buf <- slice_from buf 1;
  do? r <- slice_to buf r_length;
  do? buf <- slice_from buf r_length;
  if length buf <? 3 then Ok None else
  do? t <- index buf 0;
  if negb (b2n t =? 2)%N then Ok None else
  do? sl <- index buf 1;
  let s_length := N.to_nat (b2n sl) in
  do? s <- slice_from buf 2;
  if negb (length s =? s_length) then Ok None else
  Ok (Some (r, s)).

(** utils.rs 39-51 [signature_convert_asn1_ecdsa_to_ssh] *)
Definition signature_convert_asn1_ecdsa_to_ssh (signature : bytes) : res (option bytes) :=
  do? rs <- asn_der_to_r_s signature;
  match rs with
  | None => Ok None
  | Some (r, s) => Ok (Some ((((to_be 4 (len32 r)) ++ r) ++ to_be 4 (len32 s)) ++ s))
  end.

(** utils.rs 55-78 [format_signature_for_ssh] *)
Definition format_signature_for_ssh (public_key : pubkey) (signature : bytes)
  : res (option bytes) :=
  match pk_kind public_key with
  | PkEcdsa _ _ _ =>
      let w := write_string (kt_name (pk_type public_key)) writer_new in
      do? c <- signature_convert_asn1_ecdsa_to_ssh signature;
      match c with
      | Some sig => Ok (Some (write_bytes sig w))
      | None => Ok None
      end
  | PkRsa _ _ =>
      Ok (Some (write_bytes signature (write_string (s2b "rsa-sha2-512") writer_new)))
  | PkEd25519 _ _ =>
      Ok (Some (write_bytes signature
                  (write_string (kt_name (pk_type public_key)) writer_new)))
  end.

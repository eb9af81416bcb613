(** Specification of what reading, writing and signing leave in memory. Keys as values; the
    pieces of a key text from its format. *)
From Verif Require Import Base SpecWire SpecText SpecBase64 SpecKeys SpecPrivKey KeyType PubKeyType Writer Crypto
  PrivKey Memory SpecMemory Temps.

(** The same program over values. *)
Definition value_use_step (F : features) (K : keyops) (o : use_op) (vars : list (option privkey)) : list (option privkey) :=
  let add r := match r with Ok k => vars ++ [Some k] | _ => vars end in
  match o with
  | UKey o => value_step o vars
  | UFromBytes data => add (sk_from_bytes F data)
  | UFromString text pass | UFromPath text pass => add (sk_from_string F K text pass)
  | UWrite _ | USign _ => vars
  end.
Definition value_use_run (F : features) (K : keyops) (ops : list use_op) : list (option privkey) :=
  fold_left (fun v o => value_use_step F K o v) ops [].

(** What a text passes through when it is read: its base64 lines put together, the file, and the
    readable private section. *)
Definition passes (F : features) (K : keyops) (text : bytes) (pass : option bytes) (body data plain : bytes) : Prop :=
  exists ls rest j cipher kdf options pub section tl,
    lines_of text (key_begin_line :: ls ++ key_end_line :: rest) /\ ~ In key_end_line ls /\ body = concat ls
    /\ base64_text data (body ++ repeat x3d j)
    /\ header_ok cipher kdf options pub section tl /\ data = key_file cipher kdf options pub section ++ tl
    /\ unlocks F K pass section cipher kdf options plain.
(** The lines behind the BEGIN line put together, up to the END line or the end of the text. *)
Definition joined (text body : bytes) : Prop :=
  exists ls rest, lines_of text (key_begin_line :: ls ++ rest) /\ ~ In key_end_line ls /\ body = concat ls
    /\ (rest = [] \/ exists rest', rest = key_end_line :: rest').
Definition given (pass : option bytes) : list bytes := match pass with Some p => [p] | None => [] end.
Definition var (vars : list (option privkey)) (i : nat) (k : privkey) : Prop := nth_error vars i = Some (Some k).

(** A bare section that breaks off after the secret of [k]: no comment can be read. *)
Definition cut_key (F : features) (k : privkey) (data : bytes) : Prop :=
  exists b rest, kt_from_name (kt_name (sk_type k)) = Ok (sk_type k) /\ key_kind (sk_type k)
    /\ secret_data F (sk_type k) (pk_kind (sk_pub k)) (sk_kind k) b
    /\ data = field (kt_name (sk_type k)) ++ b ++ rest
    /\ ~ (exists c tl, utf8_text c /\ field_ok c /\ rest = field c ++ tl).
Definition secrets (k : privkey) : list bytes :=
  match sk_kind k with
  | SkRsa r => [rp_n r; rp_e r; rp_d r; rp_coefficient r; rp_p r; rp_q r] ++ given (rp_exp r) ++ given (rp_exq r)
  | SkEcdsa _ key | SkEd25519 key => [key]
  | SkEcdsaSk h | SkEd25519Sk h => [hw_handle h; hw_reserved h]
  end.

(** What a failing read leaves at least: the passphrase and each stage that was reached. *)
Definition at_least (F : features) (K : keyops) (text : bytes) (pass : option bytes) (l : list bytes) : Prop :=
  (forall k, sk_from_string F K text pass <> Ok k) /\ incl (given pass) l
  /\ (forall body, joined text body -> In body l) /\ (forall data, key_text data text -> In data l)
  /\ (forall body data plain, passes F K text pass body data plain -> In plain l).

(** ** What a failing read leaves, exactly *)
(** The parts of a bare section behind its type name; secret parts and all RSA numbers are kept in
    buffers that are given back as they are. *)
Inductive part := PText | PCurve | PPoint | PFlags | PSecret | PNumber.
Definition remembered (p : part) : bool := match p with PSecret | PNumber => true | _ => false end.
Inductive begins : part -> bytes -> bytes -> bytes -> Prop :=
| B_text s rest : utf8_text s -> field_ok s -> begins PText s (field s ++ rest) rest
| B_curve c rest : supported_curve c -> begins PCurve (c_identifier c) (field (c_identifier c) ++ rest) rest
| B_point v rest : field_ok v -> begins PPoint v (field v ++ rest) rest
| B_flags x rest : begins PFlags [x] (x :: rest) rest
| B_secret v rest : field_ok v -> begins PSecret v (field v ++ rest) rest
| B_number v bs rest : mpint_field v bs -> begins PNumber v (bs ++ rest) rest.
(** Reading part after part until one is not there. *)
Inductive so_far : list part -> bytes -> list bytes -> Prop :=
| SF_end b : so_far [] b []
| SF_stop p ps b : (forall v rest, ~ begins p v b rest) -> so_far (p :: ps) b []
| SF_more p ps v b rest l : begins p v b rest -> so_far ps rest l ->
    so_far (p :: ps) b (if remembered p then v :: l else l).
Definition layout (kt : key_type) : list part :=
  let secret := if kt_is_sk kt then [PText; PFlags; PSecret; PSecret] else [PSecret] in
  match kt_k kt with
  | KRsa => repeat PNumber 6
  | KEcdsa => PCurve :: PPoint :: secret
  | KEd25519 => PPoint :: secret
  | _ => []
  end.
(** When all six RSA numbers are there, the exponents as far as they exist. *)
Inductive exponents (rsa : bool) : list bytes -> list bytes -> Prop :=
| X_none l : rsa = false \/ length l <> 6 -> exponents rsa l []
| X_p n e d i p q : rsa = true -> (magnitude p < 2)%N -> exponents rsa [n; e; d; i; p; q] []
| X_q n e d i p q x : rsa = true -> crt_value true d p (Some x) -> (magnitude q < 2)%N -> exponents rsa [n; e; d; i; p; q] [x]
| X_both n e d i p q x y : rsa = true -> crt_value true d p (Some x) -> crt_value true d q (Some y) ->
    exponents rsa [n; e; d; i; p; q] [x; y].
(** A bare section without a key. *)
Inductive broken (F : features) (b : bytes) : list bytes -> Prop :=
| BR_name : (forall kt rest, kt_from_name (kt_name kt) = Ok kt -> b <> field (kt_name kt) ++ rest) -> broken F b []
| BR_parts kt rest l x : kt_from_name (kt_name kt) = Ok kt -> b = field (kt_name kt) ++ rest ->
    so_far (layout kt) rest l -> exponents (f_rsa F) l x -> broken F b (l ++ x).
Definition bare_key (F : features) (b : bytes) : Prop := exists k bs tl, priv_data F k bs /\ b = bs ++ tl.
(** A private section: nothing when the check integers differ, and nothing when it holds a key,
    which then has another public key than the header says, and is wiped. *)
Inductive section_left (F : features) (plain : bytes) : list bytes -> Prop :=
| SL_check : (forall m rest, (m <= u32_max)%N -> plain <> be32 m ++ be32 m ++ rest) -> section_left F plain []
| SL_other m rest : (m <= u32_max)%N -> plain = be32 m ++ be32 m ++ rest -> bare_key F rest -> section_left F plain []
| SL_broken m rest l : (m <= u32_max)%N -> plain = be32 m ++ be32 m ++ rest -> ~ bare_key F rest -> broken F rest l ->
    section_left F plain l.
(** A text, besides the passphrase. *)
Inductive text_left (F : features) (K : keyops) (text : bytes) (pass : option bytes) : list bytes -> Prop :=
| TL_begin : (forall body, ~ joined text body) -> text_left F K text pass []
| TL_decode body : joined text body -> (forall data, ~ key_text data text) -> text_left F K text pass [body]
| TL_header body data : joined text body -> key_text data text ->
    (forall cipher kdf options pub section tl, header_ok cipher kdf options pub section tl ->
       data <> key_file cipher kdf options pub section ++ tl) -> text_left F K text pass [body; data]
| TL_locked body data cipher kdf options pub section tl : joined text body -> key_text data text ->
    header_ok cipher kdf options pub section tl -> data = key_file cipher kdf options pub section ++ tl ->
    (forall plain, ~ unlocks F K pass section cipher kdf options plain) -> text_left F K text pass [body; data; section]
| TL_section body data plain l : passes F K text pass body data plain -> section_left F plain l ->
    text_left F K text pass ([body; data; plain] ++ l).
Definition failed_text (F : features) (K : keyops) (text : bytes) (pass : option bytes) (l : list bytes) : Prop :=
  at_least F K text pass l /\ exists l', text_left F K text pass l' /\ l = given pass ++ l'.

(** [leaves F K vars o l]: with keys [vars], the operation [o] leaves the buffers [l] behind. *)
Inductive leaves (F : features) (K : keyops) (vars : list (option privkey)) : use_op -> list bytes -> Prop :=
| L_key o : leaves F K vars (UKey o) (replaced_now o vars)
| L_bytes data k : sk_from_bytes F data = Ok k -> leaves F K vars (UFromBytes data) []
| L_bytes_failed data l : (forall k, sk_from_bytes F data <> Ok k) -> (forall k, cut_key F k data -> l = secrets k) -> broken F data l ->
    leaves F K vars (UFromBytes data) l
| L_string text pass k body data plain : sk_from_string F K text pass = Ok k -> passes F K text pass body data plain ->
    leaves F K vars (UFromString text pass) (given pass ++ [body; data; plain])
| L_string_failed text pass l : failed_text F K text pass l -> leaves F K vars (UFromString text pass) l
| L_path text pass k body data plain : sk_from_string F K text pass = Ok k -> passes F K text pass body data plain ->
    leaves F K vars (UFromPath text pass) (text :: given pass ++ [body; data; plain])
| L_path_failed text pass l : failed_text F K text pass l -> leaves F K vars (UFromPath text pass) (text :: l)
| L_write i k text data pub section code split : var vars i k -> sk_write k = Ok text ->
    text = key_begin_line ++ [x0a] ++ split ++ [x0a] ++ key_end_line ++ [x0a] ->
    sk_encode k = Ok data -> base64_text data code -> write_pub_key (sk_pub k) writer_new = Ok (field pub) ->
    data = key_file (s2b "none") (s2b "none") [] pub section ->
    leaves F K vars (UWrite i) [section; data; code; split]
| L_write_none i : (forall k text, var vars i k -> sk_write k <> Ok text) -> leaves F K vars (UWrite i) []
| L_sign i k r der : var vars i k -> sk_kind k = SkRsa r -> f_rsa F = true -> rsa_der r = Ok der -> leaves F K vars (USign i) [der]
| L_sign_none i : (forall k r der, var vars i k -> sk_kind k = SkRsa r -> f_rsa F = true -> rsa_der r <> Ok der) ->
    leaves F K vars (USign i) [].
Inductive leaves_all (F : features) (K : keyops) : list use_op -> list (option privkey) -> list bytes -> Prop :=
| LA_nil vars : leaves_all F K [] vars []
| LA_cons o ops vars l l' : leaves F K vars o l -> leaves_all F K ops (value_use_step F K o vars) l' ->
    leaves_all F K (o :: ops) vars (l ++ l').

(** Operations that use no buffer for a while: those of C114, [from_bytes] when it succeeds,
    signing with keys other than RSA. *)
Definition quiet (F : features) (vars : list (option privkey)) (o : use_op) : Prop :=
  match o with
  | UKey _ => True
  | UFromBytes data => exists k, sk_from_bytes F data = Ok k
  | USign i => forall k r, var vars i k -> sk_kind k <> SkRsa r
  | _ => False
  end.
Fixpoint replaced_all (F : features) (K : keyops) (ops : list use_op) (vars : list (option privkey)) : list bytes :=
  match ops with
  | [] => []
  | o :: ops => match o with UKey o => replaced_now o vars | _ => [] end ++ replaced_all F K ops (value_use_step F K o vars)
  end.
Fixpoint all_quiet (F : features) (K : keyops) (ops : list use_op) (vars : list (option privkey)) : Prop :=
  match ops with [] => True | o :: ops => quiet F vars o /\ all_quiet F K ops (value_use_step F K o vars) end.

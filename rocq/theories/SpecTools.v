(** Specification of what the example programs print. Only data types, and the readers of what is
    printed, come from the model. *)
From Verif Require Import PrivKey SpecPrivKey Base SpecWire SpecText SpecKeys SpecCert SpecSigner SpecX509 SpecPiv SpecPivCalls SpecShow Crypto KeyType PubKeyType Cert
  X509 Piv PropDefaults.

(** A user certificate for the key [pub] issued by [ca] as the programs request it. *)
Definition certifies (serial : N) (principal : bytes) (pub ca : pubkey) (p : cert) : Prop :=
  ct_cert_type p = User /\ ct_serial p = serial /\ ct_key_id p = s2b "key_id"
  /\ ct_principals p = [principal] /\ ct_valid_after p = 0%N /\ ct_valid_before p = u64_max
  /\ (forall k v, ~ In (k, v) (ct_critical_options p))
  /\ (forall k v, In (k, v) (ct_extensions p) <-> v = [] /\ In k login_permissions)
  /\ key_on_wire pub (ct_key p) /\ key_on_wire ca (ct_signature_key p).

(** Decimal numbers in ASCII digits, most significant first. *)
Inductive digits : bytes -> N -> Prop :=
| D_nil : digits [] 0
| D_app t v b d : digits t v -> (d <= 9)%N -> b2n b = (48 + d)%N -> digits (t ++ [b]) (10 * v + d).
(** A number with an optional plus sign. *)
Inductive number : bytes -> N -> Prop :=
| Num t v : t <> [] -> digits t v -> number t v
| Num_plus t v : t <> [] -> digits t v -> number (x2b :: t) v.
(** A hexadecimal digit of either case. *)
Inductive hex_digit : byte -> N -> Prop :=
| Hex_dec b d : (d <= 9)%N -> b2n b = (48 + d)%N -> hex_digit b d
| Hex_low b d : (10 <= d <= 15)%N -> b2n b = (87 + d)%N -> hex_digit b d
| Hex_up b d : (10 <= d <= 15)%N -> b2n b = (55 + d)%N -> hex_digit b d.

(** The texts that name a slot, with its number: R0 to R20, and 0x with two hexadecimal digits. *)
Inductive slot_name : bytes -> N -> Prop :=
| SN_retired t v : length t <= 2 -> number t v -> (v <= 20)%N -> slot_name (s2b "R" ++ t) (129 + v)
| SN_hex a b x y : hex_digit a x -> hex_digit b y -> slot_name (s2b "0x" ++ [a; b]) (16 * x + y).

(** The lines of a text before its first empty line. *)
Inductive leading_lines : bytes -> list bytes -> Prop :=
| LL_end : leading_lines [] []
| LL_empty rest : leading_lines (x0a :: rest) []
| LL_last l : l <> [] -> no_nl l -> leading_lines l [l]
| LL_line l rest ls : l <> [] -> no_nl l -> leading_lines rest ls -> leading_lines (l ++ x0a :: rest) (l :: ls).
(** What is printed about the lines: [P i line text] for the line with number [i], from 0. *)
Definition about_lines (P : N -> bytes -> bytes -> Prop) (ls texts : list bytes) : Prop :=
  length texts = length ls
  /\ forall i l t, nth_error ls i = Some l -> nth_error texts i = Some t -> P (N.of_nat i) l t.
(** The report on a line that is no certificate. *)
Definition bad_line (why : error -> bytes) (i : N) (e : error) (t : bytes) : Prop :=
  exists d, decimal_text (Z.of_N i) d /\ t = s2b "Line " ++ d ++ s2b ": Certificate not valid: " ++ why e.

(** ** YubiKeys *)
(** What a program asks of the outside: to open some device, or an operation of an open one. *)
Inductive tool_op (H : Type) :=
| TOpen
| TOp (o : device_op H).
Arguments TOpen {H}. Arguments TOp {H}.
Definition tool_effect {H S} (D : yubikey H S) (o : tool_op H) (s : S) : S :=
  match o with TOpen => snd (y_open_any D s) | TOp o => effect D o s end.
Fixpoint tool_effects {H S} (D : yubikey H S) (os : list (tool_op H)) (s : S) : S :=
  match os with [] => s | o :: os => tool_effects D os (tool_effect D o s) end.
(** Opening, reading and attesting: no PIN, no key, no change and no signature. *)
Definition harmless {H} (sls : list slot) (o : tool_op H) : Prop :=
  match o with TOpen => True | TOp (DRead _ sl) | TOp (DAttest _ sl) => In sl sls | TOp _ => False end.
(** The certificate in the slot is for a key on a curve; as an SSH key it is [k]. *)
Definition cert_ssh_key (X : x509) (c : slot_cert) (k : pubkey) : Prop :=
  exists oid point, slot_key X c oid point /\ curve_key oid point k.
(** The line about a slot, by the certificate it holds and whether the device attests it. *)
Definition slot_report (X : x509) (C : crypto) (name : bytes) (cert : option slot_cert) (attested : bool) (line : bytes) : Prop :=
  (exists c k h, cert = Some c /\ cert_ssh_key X c k /\ key_digest C k h
     /\ line = x09 :: name ++ x3a :: x09 :: s2b "[Fingerprint: " ++ h ++ s2b "] [Attest: "
               ++ (if attested then s2b "Yes" else s2b "No ") ++ s2b "] Subject: [" ++ sc_subject c ++ s2b "]")
  \/ ((forall c k, cert = Some c -> ~ cert_ssh_key X c k) /\ line = x09 :: name ++ x3a :: x09 :: s2b "No cert found").
(** A signature with the key in slot [sl], of a digest of [m]. *)
Definition signs_digest {H} (C : crypto) (sl : slot) (m : bytes) (o : tool_op H) : Prop :=
  exists h d alg, o = TOp (DSign h d alg sl) /\ (d = c_sha256 C m \/ d = c_sha384 C m).
(** Bytes written with two hexadecimal digits each. *)
Inductive hex_text : bytes -> bytes -> Prop :=
| HT_nil : hex_text [] []
| HT_byte a b x y t k : hex_digit a x -> hex_digit b y -> hex_text t k -> hex_text (a :: b :: t) (n2b (16 * x + y) :: k).
(** What provisioning asks of the device, in order. *)
Definition provision_steps {H} (h : H) (pin key : bytes) (sl : slot) (alg : algorithm_id) (touch : N) (name : bytes) (info : key_info)
  : list (tool_op H) :=
  [TOpen; TOp (DPin h pin); TOp (DAuthenticate h key); TOp (DGenerate h sl alg 1 touch);
   TOp (DSelfSign h sl (repeat x00 20) name info); TOp (DRead h sl)].
(** The algorithm chosen by a text. *)
Definition chosen_algorithm (t : bytes) (a : algorithm_id) : Prop :=
  (t = s2b "p256" /\ a = EccP256) \/ (t <> s2b "p256" /\ a = EccP384).
(** The operation succeeds. *)
Definition succeeds {H S} (D : yubikey H S) (o : tool_op H) (s : S) : Prop :=
  match o with
  | TOpen => fst (y_open_any D s) <> None
  | TOp (DOpen n) => fst (y_open D n s) <> None
  | TOp (DReconnect h) => fst (y_reconnect D h s) <> None
  | TOp (DPin h p) => fst (y_verify_pin D h p s) <> None
  | TOp (DAuthenticate h k) => fst (y_authenticate D h k s) <> None
  | TOp (DRead h sl) => fst (y_read D h sl s) <> None
  | TOp (DGenerate h sl a p t) => fst (y_generate D h sl a p t s) <> None
  | TOp (DSelfSign h sl n c i) => fst (y_self_sign D h sl n c i s) <> None
  | TOp (DSign h d a sl) => fst (y_sign D h d a sl s) <> None
  | TOp (DWrite h sl d) => fst (y_write D h sl d s) <> None
  | TOp (DAttest h sl) => fst (y_attest D h sl s) <> None
  end.
(** Every operation but the last succeeds. *)
Inductive stops_at_failure {H S} (D : yubikey H S) : list (tool_op H) -> S -> Prop :=
| SF_nil s : stops_at_failure D [] s
| SF_last o s : stops_at_failure D [o] s
| SF_next o os s : succeeds D o s -> stops_at_failure D os (tool_effect D o s) -> stops_at_failure D (o :: os) s.
(** A key with the PIN of the command line, if there is one. *)
Definition pin_given (pin : option bytes) (k k' : privkey) : Prop :=
  (pin = None /\ k' = k) \/ exists p, pin = Some p /\ k' = set_pin p k.
(** A hardware token was asked for a signature of [m] for the credential and application of [k],
    with exactly this PIN, and gave one. *)
Definition token_asked (F : features) (C : crypto) (K : keyops) (k : privkey) (handle : bytes) (pin : option bytes) (m : bytes) : Prop :=
  exists app a, key_application k app
    /\ ((f_fido F = Ctap2Hid /\ k_hid K app m handle pin None = Some a)
        \/ (f_fido F = Mozilla /\ k_moz K app (c_sha256 C m) handle pin = Ok (Some a))).

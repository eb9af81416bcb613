# Formal model of sshcerts

Model and proofs are in `rocq/theories`, for Coq 8.16.1, logical root `Verif`.
The subject is the Rust crate in `/repo` at the pinned commit, with its default
feature set (`encrypted-keys`, `rsa-signing`, `x509`, `yubikey`,
`fido-support-mozilla`). Where a feature changes a function the model takes it as a
boolean parameter.

## Representation choices

* A byte is `Coq.Init.Byte.byte`; `&[u8]`, `Vec<u8>`, `&str` and `String` are
  `list byte`. A Rust string is additionally well-formed UTF-8: the model has a
  concrete validity test `utf8_valid` and theorems about caller-supplied strings
  assume it where it matters.
* `Result` is `res A := Ok a | Err e | Panic`. `Panic` is a value: slice indexing
  out of range, `unwrap` on `None`/`Err`, and unsigned subtraction below zero all
  produce it, so "never panics" is a theorem, not an assumption. Unsigned additions
  on `usize` are unbounded; theorem C01 shows every sum is at most the length of the
  buffer, so they cannot overflow.
* `val.len() as u32` is written as `mod 2^32`. Round-trip theorems carry the
  hypothesis that fields are shorter than 4 GiB.
* `&mut self` methods return the new state, also when they fail.
* `HashMap` is an association list without duplicate keys whose order is *some*
  iteration order. Functions that iterate take the order as a parameter constrained
  only to be a permutation, and theorems hold for every order.
* Cryptography (`ring`, `aes`, `bcrypt-pbkdf`, `num-bigint` randomness), X.509
  parsing (`x509-parser`) and hardware are fields of parameter records: arbitrary
  functions without assumed laws. Where a law is needed (a digest has 32 bytes,
  CTR encryption is an involution) it is an explicit hypothesis of the theorem.
* Base64, UTF-8, white-space splitting, line splitting, decimal printing, the used
  part of chrono's date parsing, the used part of minicbor and DER splitting are modelled concretely.

## Files

| model | of | specification | lemmas | properties |
| --- | --- | --- | --- | --- |
| `Base.v` | bytes, big-endian integers, `res`, `src/error.rs` | | `BaseFacts.v` | |
| `Utf8.v`, `Str.v`, `Base64.v` | the `core::str` and base64 0.13 functions called | `SpecText.v`, `SpecBase64.v` | `Utf8Facts.v`, `StrFacts.v`, `Base64Facts.v` | `PropBase64.v` (C15, C16) |
| `Reader.v`, `Writer.v` | `src/ssh/reader.rs`, `writer.rs` | `SpecWire.v` | `ReaderFacts.v`, `WriterFacts.v`, `WireFacts.v`, `LocalFacts.v` | `PropReader.v` (C01-C11) |
| `KeyType.v` | `src/ssh/keytype.rs` | | `KeyTypeFacts.v` | `PropKeyType.v` (C17-C19) |
| `PubKeyType.v`, `PubKey.v` | `src/ssh/pubkey.rs` | `SpecKeys.v` | `PubKeyFacts.v` | `PropPubKey.v` (C20-C26) |
| `Crypto.v`, `Utils.v`, `Signature.v` | primitives, `src/utils.rs`, `src/ssh/signature.rs` | `SpecSig.v`, `SpecSshSig.v` | `SignatureFacts.v`, `UtilsFacts.v`, `SshSigFacts.v` | `PropSignature.v` (C28-C34), `PropSshSig.v` (C45-C51) |
| `Cert.v` | `src/ssh/cert.rs` | `SpecCert.v` | `CertFacts.v`, `TbsFacts.v` | `PropCert.v` (C12-C14, C27, C35, C36), `PropCertText.v` (C37, C42-C44), `PropIssue.v` (C38-C41) |
| `PrivKey.v` | `src/ssh/privkey.rs`, `src/fido/signing` | `SpecPrivKey.v`, `SpecSign.v` | `PrivKeyFacts.v` | `PropPrivKey.v` (C52-C61), `PropSign.v` (C75-C79) |
| `AllowedSigner.v`, `Chrono.v` | `src/ssh/allowed_signer.rs`, the chrono 0.4 parsing it calls | `SpecSigner.v` | `SignerFacts.v`, `EntryFacts.v`, `FileFacts.v`, `ChronoFacts.v` | `PropSigner.v` (C62-C69, C80) |
| `Fido.v` | `src/fido/parsing.rs`, the minicbor 0.13 decoding it calls | `SpecFido.v` | `FidoFacts.v` | `PropFido.v` (C70, C71) |
| `X509.v` | `src/x509/mod.rs`, `src/fido/verification.rs`, `src/yubikey/verification.rs` | `SpecX509.v` | `X509Facts.v` | `PropX509.v` (C72-C74) |
| `Piv.v` | `src/yubikey/piv/management.rs`, `ssh.rs` | `SpecPiv.v` | | `PropPiv.v` (C81-C88) |
| `PivCalls.v` | sequences of calls of the `Yubikey` methods | `SpecPivCalls.v`, `SpecPivReads.v` | | `PropPivCalls.v` (C95-C98), `PropPivReads.v` (C97) |
| `Generate.v` | `src/fido/generate` | `SpecGenerate.v` | | `PropGenerate.v` (C89-C91) |
| `Show.v` | `Display` of certificates (alternate form), private keys and errors | `SpecShow.v` | `ShowFacts.v` | `PropShow.v` (C92-C94) |
| `Files.v` | the `from_path` functions, and `write` to a writer that fails after some bytes | `SpecFiles.v` | `CutFacts.v`, `CutSignerFacts.v` | `PropFiles.v` (C100-C102), `PropWrites.v` (C100) |
| `Cert.v` | names of certificate types, standard extensions | | | `PropDefaults.v` (C99) |
| `Tools.v` | the programs in `examples` but new-fido-sshkey | `SpecTools.v` | | `PropTools.v` (C103, C104), `PropSlots.v` (C105), `PropInspect.v` (C106), `PropYkTools.v` (C107 to C109) |
| | no new model | `SpecPin.v` | | `PropPin.v` (C110) |
| | no new model | `SpecSize.v` | | `PropSize.v` (C111) |
| `Token.v` | `src/fido/signing` again, with the devices as a world with state | `SpecToken.v` | | `PropToken.v` (C112) |
| `NewFido.v` | `examples/new-fido-sshkey.rs` | `SpecNewFido.v` | | `PropNewFido.v` (C113) |
| `Memory.v` | buffers of `ssh/privkey.rs` keys, `Drop` | `SpecMemory.v` | `MemoryFacts.v` | `PropMemory.v` (C114) |
| (readers above) | | `SpecKinds.v` | `KindFacts.v` | `PropKinds.v` (C115) |
| `Devices.v` | finding devices and asking about their PIN | `SpecDevices.v` |  | `PropDevices.v` (C116) |
| (no new model) | reading, changing and signing again | `SpecRenew.v` |  | `PropRenew.v` (C117) |
| `Debug.v` | derived `Debug` of keys, with the parts of `core::fmt` it uses | `SpecDebug.v` | `DebugFacts.v` | `PropDebug.v` (C118) |
| `Equal.v` | derived `PartialEq` of certificates and private keys | (`SpecCert.v`, `SpecPrivKey.v`) |  | `PropEqual.v` (C119) |
|  | order of options | `SpecOrder.v` |  | `PropOrder.v` (C120) |
|  | acceptance of certificates | (`SpecCert.v`, `SpecSig.v`) |  | `PropAccept.v` (C121) |
|  | additions that leave signatures valid | (`SpecSig.v`, `SpecCert.v`, `SpecSshSig.v`) |  | `PropMalleable.v` (C122) |
|  | plain and hardware keys with the same bytes | `SpecCross.v` |  | `PropCross.v` (C123) |
|  | values of 4 GiB and more | `SpecCert.v`, `SpecCross.v` |  | `PropHuge.v` (C124) |
|  | builds with different features | `SpecFeatures.v` |  | `PropFeatures.v` (C125) |
| `Temps.v` | temporary buffers of `ssh/privkey.rs`: `from_*`, `encode`, `write`, `sign` | `SpecTemps.v` | `TempsFacts.v`, `LeftFacts.v` | `PropTemps.v` (C126) |
|  | Errors of refused signatures, of certificates with such signatures, and of issuing | `SpecRefused.v` | `RefusedFacts.v` | `PropRefused.v` (C128) |
|  | errors for refused attestations | `SpecAttest.v` |  | `PropAttest.v` (C129) |
|  | file signatures against allowed_signers entries | `SpecTrusted.v` |  | `PropTrusted.v` (C130) |
|  | printed allowed_signers entries read back | `SpecRewrite.v` | `RewriteFacts.v` | `PropRewrite.v` (C131) |
|  | altered encrypted key files | `SpecTamper.v` |  | `PropTamper.v` (C132) |
|  | files of printed certificates |  |  | `PropCertLines.v` (C133) |
|  | line ends | `SpecLineEnds.v` |  | `PropLineEnds.v` (C134) |
|  | rewriting what was read |  |  | `PropAgain.v` (C135) |
|  | questions to the crypto backend | `SpecAsk.v` |  | `PropAsk.v` (C136) |
|  | the passphrase of a private key |  |  | `PropPassphrase.v` (C137) |
|  | time zones | `SpecZone.v` |  | `PropZone.v` (C138) |
| `EqualSigner.v` | derived `PartialEq` of allowed-signers entries |  |  | `PropEntryEqual.v` (C139) |
| `DebugMore.v` | derived `Debug` of certificates, allowed-signers entries and files, signatures of messages | `SpecDebugMore.v` | `DebugMoreFacts.v` | `PropDebugMore.v` (C140) |
| `Cert.v`, `Signature.v` (no new model) | histories of a private key | `SpecHistory.v` | in `PropHistory.v` | `PropHistory.v` (C141) |
| `Signature.v`, `Cert.v` (no new model) | histories of a hardware token | `SpecBacked.v` | in `PropBacked.v` | `PropBacked.v` (C142) |
| `PivCalls.v` (no new model) | the methods on a device that others use too | `SpecShared.v` | | `PropShared.v` (C143) |
| `PivCalls.v`, `Cert.v` (no new model) | histories of a key in a slot | `SpecSlotHistory.v` | | `PropSlotHistory.v` (C144) |
| `PrivKey.v`, `Signature.v`, `PubKey.v`, `Cert.v`, `AllowedSigner.v` (no new model) | texts with something behind what is read | `SpecSeveral.v` | | `PropSeveral.v` (C145) |
| `PrivKey.v`, `Signature.v`, `PubKey.v`, `Cert.v`, `AllowedSigner.v` (no new model) | texts laid out differently | `SpecLayout.v` | | `PropLayout.v` (C146) |
| `PrivKey.v`, `Cert.v`, `Signature.v` (no new model) | secrets of other keys | `SpecMixed.v` | | `PropMixed.v` (C147) |
| `PubKey.v`, `Cert.v` (no new model) | printed lines | `SpecPrinted.v` | | `PropPrinted.v` (C148) |
| `X509.v`, `Fido.v`, `Cert.v`, `Signature.v` (no new model) | certificates for attested keys | `SpecEnrolled.v` | | `PropEnrolled.v` (C149) |
| `Signature.v`, `PrivKey.v` (no new model) | written armored texts | `SpecArmor.v` | | `PropArmor.v` (C150) |
| `PubKey.v` (no new model) | several keys in one file | `SpecText.v`, `SpecShow.v` | | `PropKeyLines.v` (C151) |
| SpecNames.v, SpecErrors.v, ErrorsFacts.v, PropErrors.v | the errors of each reading function (C127) |

Model files contain no proofs. Each `Prop*.v` has the theorems `Cnn_...`, `Print Assumptions`
after each, and an example beside each that meets its hypotheses. A theorem named `..._refuted`
shows by a witness that a stronger claim a reader might expect is false of the code.

## Plan per property

| property | modelled | how it is proved |
| --- | --- | --- |
| C01 | all Reader methods as a state machine with `Panic` | case analysis per method, induction over call sequences |
| C02, C04, C05 | `read_bytes`, `read_u32/64`, `read_raw_bytes` | exact characterisation against big-endian arithmetic |
| C03 | all read methods, returning the state on failure | case analysis |
| C06, C07 | mpint reader and writer | against the RFC 4251 canonical form of a natural number |
| C08 | `read_string`, `utf8_valid` | against the encoding of scalar value sequences |
| C09 | `read_cstring`, `write_cstring` | induction; exact condition for round trip |
| C10, C11 | typed field sequences | induction over the message; prefix argument |
| C12-C14 | `read_principals`, `read_options`, `write_string_vec/map` | induction over the buffer / list |
| C15, C16 | base64 0.13 encode/decode | induction over groups of three bytes / four characters |
| C17-C19 | key type and curve tables | case analysis over the table, all strings for rejection |
| C20-C27 | public keys | compositional "consumes/inverts" lemmas for parsers |
| C28-C32 | `verify_signature` | exact characterisation by a wire-format relation |
| C33, C34 | `utils.rs` | case analysis on lengths; DER specification |
| C35-C45 | certificates | wire-format relation, round trip, builder histories as lists of calls |
| C46-C51 | SSHSIG | round trip, armor chunking, injectivity |
| C52-C61 | private keys | round trip, inversion, panic characterisation |
| C62-C69 | allowed signers | tokenizer and parser model, calendar specification |
| C70, C71 | authenticator data, its CBOR and COSE key | relation of bytes and parsed data, both directions |
| C72, C73 | attestation checks | exact conditions over parsed certificates, parsers arbitrary |
| C74 | SSH keys of X.509 keys | case analysis on the parsed structure |
| C75-C79 | signing with private keys | DER and signature specifications; primitives assumed to sign, as hypotheses |
| C80 | allowed-signer texts | as C62-C69 |
| C81-C88 | YubiKey PIV methods | a device is any state machine; noninterference where arguments matter |
| C89, C90 | new FIDO keys | exact conditions, then C52 and C75 |
| C91 | threads and channels of the mozilla registration | small steps; invariant by induction over runs; a measure bounds the steps |
| C92 | the listing of a certificate | as lines; splitting them back into the facts |
| C93, C94 | texts of private keys and errors | case analysis; decimal numbers are prefix-free before a separator |
| C95-C97 | sequences of YubiKey calls | the operations each call may do, for any device; induction over the sequence |
| C98 | keys and certificates in slots | invariant over sequences and points of failure; then C85 |
| C99 | names and defaults in `cert.rs` | case analysis over all strings; then C38 |
| C100 | writers that fail after any number of bytes, then `from_path` | armor without its last line is rejected; then C101 |
| C101, C102 | `from_path` and `from_string` on a text and a beginning of it | decoding and tokenizing commute with taking beginnings |
| C103, C104 | the programs that sign with key files | C38-C40, C46-C48 and C75 applied to what the programs request |
| C105 | the slot argument of the YubiKey programs | case analysis on the text; decimal and hexadecimal numbers as relations |
| C106 | the programs that show files | induction over the lines; then C92, C93, C74 |
| C107 | issuing with a YubiKey; the steps of a program as device operations | each step of the program adds operations to a list; then C38, C82, C84, C105 |
| C108 | provisioning a slot | case analysis on the first step that fails; then C83, C85 |
| C109 | the report on all slots | induction over the list of slots; then C83 and the digest of C93 |
| C110 | no new model | equal digests give equal encodings or a collision; validity depends only on the family and numbers of a key; then C35, C48 |
| C111 | no new model | lengths of the wire and text forms (C21, C35, C47, C55, C62, C66) bound the sum of the fields; maps by counting distinct entries |
| C112 | `Token.v`: both FIDO signing backends over a stateful world of tokens; sessions of calls on one key | the world is recorded; induction over the session against a relation on requests and results; ties to `PrivKey.v` by running the exchange inside its device function |
| C113 | `NewFido.v`: the program over the result of key generation and an output that fails after some bytes | C89, C23, C53, C101 and C75 composed; the ES256 file equals that of a well-named key |
| C114 | `Memory.v`: buffers with addresses, wiping and giving back; temporaries of reading, writing and signing are in C126 | refinement to plain values with an ownership invariant; multiset of what is left |
| C115 | the readers of the five text formats | words of a text against words of its lines; base64 of a blob starts with `A`, which no option or key type does |
| C116 | `Devices.v`: the listing and both questions over a world of devices, mixed with the signing sessions of C112; texts of errors dropped | the world is recorded; induction over the program; questions become outside events of C112's sessions |
| C117 | certificates that are read, changed and signed again; no new model | parsed certificates have the shape that C38's lemmas need; the to-be-signed bytes compared field by field with the signed part |
| C118 | Debug output of keys | `Debug.v` writes what derive(Debug) and core::fmt write; each value's text can be cut off at the character that follows it, by induction on texts, lists and fields, so equal texts give equal keys; a separate grammar of the output, with the names written out, is shown to hold of the text and of no other; refuted: that Debug hides what Display hides |
| C119 | `==` on certificates, public and private keys | `Equal.v` has the derived comparisons, with that of `HashMap`; equality of maps shown to be equality of entries by counting; certificates that were read compared through their kept bytes; refuted: that one secret gives equal keys, that equal certificates have equal bytes to sign |
| C120 | order of the options in issued certificates; no new model | the bytes compared field by field with any layout of the format (`signed_layout` of C117); reading through C14; refuted by a witness: that names are in lexical order, that a request determines the bytes to sign |
| C121 | which fields and issuers are accepted; no new model | C35 in both directions; the signed bytes built for arbitrary values; issuer types by the labels that C28 allows; refuted by witnesses: that accepted certificates make sense, that issuers are plain keys |
| C122 | additions to signatures, certificates and armored texts; no new model | the exact conditions of C28, C35, C47 hold again after the addition; induction over the lines of the text |
| C123 | plain and hardware keys with the same bytes; no new model | the exact condition of C28 in both directions; lengths of the signed part and of the payload; refuted by a witness: that a blob is good for one type of key only |
| C124 | values of 4 GiB and more; no new model | lengths modulo 2^32 in Writer.v; reading back by C02; bounded fields by the encoding lemmas of C38; the confusing request built from values of abstract size and read by C35; file signatures by comparing total length and wrapped length |
| C125 | two builds with different features, side by side; no new model | the two runs of each reader are related step by step (`steps`, `follow`), differing only in the computed RSA exponents and at decryption; signing by cases on the kind of key; the crash by an RSA key with p = 1 |
| C126 | `Temps.v`: the buffers that hold secrets for a while in reading, writing and signing, on the memory of C114; copies made by growing buffers, the stack and other crates left out (they can only leave more) | refinement to plain values with an ownership invariant; multiset of what is left, from the format, for failing reads too, and uniqueness of that multiset; refutation of "dropped keys are gone" |
| C127 | Sets of errors for each function (SpecErrors.v), with names and numbers. | One direction by a rule for each reader step that bounds its errors, the other by inputs built for every name and number; exact for keys, certificates and signers. Refuted: the type named in UnknownKeyType is always an unsupported one. |
| C128 | `SpecRefused.v` lists, by error, the reasons for refusing a signature blob (`refused`), over the wire format and the primitives only | `RefusedFacts.v`: each failing read as an equivalence; `C128_refusals` (error iff reason), `C128_one_reason`, `C128_form` and `C128_invalid_signature` (only InvalidSignature depends on message, key bytes and primitives), `C128_certificate_refusals`, `C128_issuing`, `C128_builder`, `C128_mismatch_means_other_key_refuted` |
| C129 | the models of C70, C72 and C73 | equivalences between each error and an inductive description of the first wrong part (`SpecAttest.v`), by induction over the map's entries and the extensions |
| C130 | the models of C47, C48, C62, C66, C67 and C79 | the key of an accepted line equals the signature's key exactly if the text spells it (`SpecTrusted.v`), from the unique words of a line and the exact key texts; files by induction over their lines; a tab comment and the ignored limits as counterexamples |
| C131 | the models of C47, C48, C66 and C67, for arbitrary entries | the printed text is a list of words (`RewriteFacts.v`); each step of reading it is inverted, giving both directions; files by inverting the line reader; three ways in which rewriting changes the meaning as counterexamples |
| C132 | the models of C52 to C57; the cipher as an arbitrary function that adds a key stream (a hypothesis, `SpecTamper.v`) | exclusive or commutes with decryption; then the exact reading of sections and headers; the layout of the section gives the positions; a one-bit alteration that turns off the touch flag as counterexample |
| C133 | the models of C42, C92 and C106 | the number of lines is the number of line breaks; each printed certificate is read back (C42); programs by their exact behaviour on lines (C106); forged lines as counterexamples |
| C134 | the models of C47, C55, C66, C19, C42 and C106 | conversion as a map on bytes; the relation `lines_of` (LF or CR LF ends a line) is preserved by it, and so are words, since CR and LF are white space; induction over the lines of the text |
| C135 | the models of C23, C24, C42, C44, C53 and C55 | the exact accepted texts (C24, C44, C55) give the hypotheses of the round trips (C23, C42, C53); the key with an empty reserved field is storable if the key that was read is; witnesses for what the first rewriting loses |
| C136 | the models of C28, C35 and C48 | the program for one signature is followed read by read, with backend and message as variables: every step before the question is the same for all of them; certificates through the split of the parser at the signature |
| C137 | the models of C53 and C55 | reading is split at the private section: the part before does not mention the passphrase, and its accepted inputs are inverted read by read; then the cases of the cipher and key derivation names |
| C138 | the models of C62 to C66 | the loop over the options is run in both zones at once, with a relation between the two states, by induction over the pieces of the line; each value is found again as a part of the text |
| C139 | `EqualSigner.v` and the models of C62 to C67 | the printed line is cut at its spaces by induction over the option words; option words and names of key types begin with different letters; lists are recovered from their commas, bounds from their digits, keys from their type, base64 and comment |
| C140 | Debug output of certificates, entries and signatures | `DebugMore.v` on top of `Debug.v`; texts of lists and maps can be cut off at their ends by induction on their elements, so equal texts give equal values; a separate grammar is shown to hold of the text, and of no other but for the order of maps, which ranges over all permutations; refuted: that a certificate has one text |
| C141 | histories as lists of uses (`SpecHistory.v`), forgery defined from `accepted` | every accepted signed part or payload is decided against the history; a matching use is an issue (C40, unique parse), never the other kind (C45), or the bytes themselves; congruence in the signer for one use |
| C142 | histories of a token as lists of assertions (`SpecBacked.v`) | the accepted message of the plain twin (C123) is decided against the history; lengths of digest, flags, counter and challenge make the assertion unique |
| C143 | interleavings with other users of the devices | the device wrapped so that anything may happen before each operation; C95, C97 and C98 for the wrapped device, and for one that only has the slot in question; race by witness |
| C144 | histories of a slot as operations done in calls (`SpecSlotHistory.v`) | what operations sign from C95, for one program and for merges (C143); induction over the operations; DER is neither a signed part nor a payload; then C141 |
| C145 | readers on texts that go on behind what is read (`SpecSeveral.v`) | the lines of the whole are those of the first part and those of the second, and the search for the end line stops in the first; likewise the words, of which three are used; reading signers appends, with line numbers moved by the number of breaks |
| C146 | readers on texts that differ in layout (`SpecLayout.v`) | words and lines of the texts from C23, C47, C55 and C66; the body is decoded as one text; induction over the lines that count in an allowed-signers file |
| C147 | keys put together from two keys (`SpecMixed.v`) | the mixed key is storable, and storable keys have a file (C53, C132); C39 and C50 for what is issued |
| C148 | the printed line as base64 text between single spaces (`SpecPrinted.v`) | encoding of keys (C20), bytes kept verbatim (C43); neither names nor base64 texts contain a space, so lines can be taken apart |
| C149 | signatures made with a key under any primitive (`SpecEnrolled.v`) | C72, C73 for attestations, C38 for what parses back, the exact description of accepted signatures; digests have 32 bytes, so prefixes can be compared |
| C150 | the written text as filled lines of base64 text (`SpecArmor.v`) | filled lines with the same content are equal (induction on the lines); the two ways of wrapping agree with them |
| C151 | a line is read as a key with the first word of its comment; lines as in `SpecText.v` (definitions at the head of `PropKeyLines.v`) | text round trip of one key (C23) lifted to lists by induction; number of lines = number of line breaks; words contain no line break |

## Trusted base

* The Coq 8.16.1 kernel, with `vm_compute`.
* `Print Assumptions` answers "Closed under the global context" for every property theorem: no
  axiom of ours and none of the standard library is used by any of them.
* Loading `Lia` brings the standard library's `Coq.ssr.ssrunder.Under_rel.*` (seven parameters of
  a sealed module: `Under_rel`, `Under_rel_from_rel`, `Under_relE`, `under_rel_done`, `Over_rel`,
  `over_rel`, `over_rel_done`) into the environment. No theorem depends on them.
* The faithfulness of the model to `/repo`, function by function as cited in comments.
* The reading of dependencies that are modelled concretely: Rust `core::str`
  functions, base64 0.13, `core::fmt` where `derive(Debug)` uses it, chrono 0.4 parsing, minicbor 0.13, the DER writing of simple_asn1 0.5,
  the meaning of `std::sync::mpsc` channels in C91, and of `zeroize` 1 on vectors and strings in C114.

Not modelled:

* memory other than the buffers a private key owns (`Memory.v`) and the temporary copies of secrets in
  `privkey.rs` (`Temps.v`): what growing buffers leave, the stack, other crates and other files;
* `Debug` output of anything but keys, certificates, allowed-signers entries and signatures, `Display`
  of errors of other crates;
* hardware transport (USB HID, PC/SC): devices are arbitrary functions;
* the file system (a file is its contents or a failure to open it; files do not change while they
  are read), random number quality, timing;
* the lines of the mozilla registration before its threads start;
* the command lines of the programs in `examples` (clap), and what they print before a panic.

## Tests of the model

`conformance/run.sh` evaluates the model on the test vectors of `/repo/tests` inside Coq and compares
with what the Rust tests assert (155 + 23 tests, all agree). Signatures that the model makes with the
unencrypted test keys are accepted by `ssh-keygen`, which also reads the 24 certificates that the model
issues for six kinds of key and four authorities. These are tests and carry no theorem.

## Tests of the theorems

`seeded/LOG.jsonl` records edits of the model, made in a scratch copy, that stand for realistic
bugs. There are two kinds of entries.

* Edits chosen by hand (ids that do not begin with `A` and a hash). The copy was rebuilt with every
  broken proof left open, and the theorems named as failed are those whose `Print Assumptions` then
  showed an open proof. Entries with `build_stopped` were not rebuilt to the end.
* Edits generated by a script (entries with `first_proof_to_fail`). The build was stopped at the first
  proof that failed, and only that failure was observed. The theorems named as failed are inferred:
  they are those whose proofs name it, directly or through lemmas, in the sources at the time the log
  was written, so they include theorems that were added after the run. Where no claim was written by
  hand, `claim_broken` lists the properties of these theorems.

In both kinds a failed proof shows that the proof noticed the edit. It does not by itself show that the
statement became false. Edits that did not compile, and those whose build timed out (8 generated ones
at the time of writing), are not in the log. Each entry was run against the theorems of its day.

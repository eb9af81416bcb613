{"id": "C01", "title": "Reader never panics and never runs past its buffer", "statement": "Any sequence of Reader calls (read_bytes, read_raw_bytes, read_positive_mpint, read_string, read_cstring, read_u32, read_u64, set_offset to any position) on any buffer ends each call with a value or an Err, never a panic; a successful read that started inside the buffer leaves get_offset() at most the buffer length, so no offset arithmetic can overflow, and the buffer is never changed.", "quantifier": "every byte buffer, every starting offset (including offsets beyond the end), every finite sequence of Reader calls with any arguments", "why_tests_cant": "The slice indices and subtractions depend on attacker-chosen 32-bit lengths and on the offset history; a test only tries a few of the unboundedly many buffer/offset/length combinations.", "anchors": ["src/ssh/reader.rs: Reader::read_bytes, read_raw_bytes, read_positive_mpint, read_string, read_cstring, read_u32, read_u64, set_offset"]}
{"id": "C02", "title": "read_bytes returns exactly one length-prefixed field", "statement": "Reader::read_bytes returns Ok(b) exactly when the unread bytes are be32(len b) followed by b followed by anything, and then the offset moves by 4 + len b. It returns UnexpectedEof exactly when nothing is unread, and InvalidFormat in every other case.", "quantifier": "every byte buffer and offset", "why_tests_cant": "An exact accept/reject characterisation over all buffers and all declared lengths.", "anchors": ["src/ssh/reader.rs: Reader::read_bytes"]}
{"id": "C03", "title": "Failed reads do not consume input", "statement": "When read_bytes, read_raw_bytes, read_u32, read_u64 or read_cstring returns an error, the reader is left at the offset it had before the call. When read_string or read_positive_mpint fails, the offset is unchanged if the field could not be framed and lies exactly behind the field if only its content was rejected.", "quantifier": "every byte buffer, offset and argument", "why_tests_cant": "All failing inputs of each method must be covered, including truncation at every byte.", "anchors": ["src/ssh/reader.rs: Reader::read_bytes, read_raw_bytes, read_u32, read_u64, read_cstring, read_string, read_positive_mpint"]}
{"id": "C04", "title": "Fixed-width integers are big-endian and round trip", "statement": "write_u32/write_u64 append the 4/8-byte big-endian form of the value; read_u32/read_u64 return the big-endian value of the next 4/8 bytes, fail with UnexpectedEof only when nothing is unread and InvalidFormat when fewer than 4/8 bytes are unread; reading back a written value yields it.", "quantifier": "every u32/u64 value, every buffer and offset", "why_tests_cant": "2^32 and 2^64 values, in any buffer context.", "anchors": ["src/ssh/reader.rs: read_u32, read_u64", "src/ssh/writer.rs: write_u32, write_u64"]}
{"id": "C05", "title": "read_raw_bytes returns exactly the requested bytes", "statement": "read_raw_bytes(n) returns the next n unread bytes and advances by n when at least one byte is unread and n do not exceed the unread bytes; otherwise it fails with UnexpectedEof (also for n = 0 at the end of the buffer).", "quantifier": "every byte buffer, offset and requested length", "why_tests_cant": "All lengths up to usize::MAX against all buffers.", "anchors": ["src/ssh/reader.rs: Reader::read_raw_bytes"]}
{"id": "C06", "title": "mpint reading accepts exactly the canonical positive integers", "statement": "read_positive_mpint succeeds exactly when the field is the RFC 4251 shortest two's-complement form of a non-negative integer, and it returns that integer's shortest big-endian magnitude; every integer has exactly one accepted field.", "quantifier": "every byte buffer and offset; every natural number", "why_tests_cant": "Uniqueness of the accepted encoding over all integers cannot be sampled.", "anchors": ["src/ssh/reader.rs: Reader::read_positive_mpint"]}
{"id": "C07", "title": "mpint writing is canonical and value-preserving", "statement": "write_mpint of any big-endian magnitude (with any number of leading zero bytes) appends the one canonical mpint field of the same integer, which read_positive_mpint accepts and returns as the magnitude without leading zeros; writing what was read reproduces the field.", "quantifier": "every magnitude shorter than 2^32-1 bytes", "why_tests_cant": "All integers and all paddings.", "anchors": ["src/ssh/writer.rs: Writer::write_mpint", "src/ssh/reader.rs: Reader::read_positive_mpint"]}
{"id": "C08", "title": "Strings round trip and only valid UTF-8 is returned", "statement": "read_string returns Ok only for fields whose content is well-formed UTF-8 (the encoding of a sequence of Unicode scalar values), fails with the UTF-8 error on every other framed field, and returns the exact bytes; write_string followed by read_string yields the same string.", "quantifier": "every byte buffer and offset; every Rust string shorter than 2^32 bytes", "why_tests_cant": "UTF-8 validity has unboundedly many boundary cases (overlong forms, surrogates, truncation).", "anchors": ["src/ssh/reader.rs: Reader::read_string", "src/ssh/writer.rs: Writer::write_string"]}
{"id": "C09", "title": "C strings round trip exactly for ASCII text", "statement": "write_cstring followed by read_cstring returns the same string and consumes it with its NUL exactly when the string is ASCII without NUL bytes; a string with a NUL or with a non-ASCII character never comes back unchanged. A buffer without NUL yields UnexpectedEof.", "quantifier": "every Rust string; every buffer", "why_tests_cant": "The failing class is every non-ASCII string; a test of ASCII literals passes.", "anchors": ["src/ssh/reader.rs: Reader::read_cstring", "src/ssh/writer.rs: Writer::write_cstring"]}
{"id": "C10", "title": "A message written field by field is read back field by field", "statement": "For any sequence of typed fields written with Writer (u32, u64, bytes, string, mpint, non-empty raw bytes), reading the same types in the same order from the produced bytes yields the written values and stops exactly at the end, whatever bytes follow or precede.", "quantifier": "every finite sequence of typed fields with contents below 4 GiB, every surrounding context", "why_tests_cant": "An induction over message histories.", "anchors": ["src/ssh/reader.rs: Reader", "src/ssh/writer.rs: Writer"]}
{"id": "C11", "title": "Truncated messages are rejected", "statement": "For any such sequence of fields, reading from any strict prefix of the written bytes does not return all values: some read fails with an error, and none panics.", "quantifier": "every finite field sequence and every truncation point", "why_tests_cant": "Every truncation point of every message.", "anchors": ["src/ssh/reader.rs: Reader", "src/ssh/writer.rs: Writer"]}
{"id": "C12", "title": "Principal lists have a one-to-one wire form", "statement": "Certificate principals: a principals buffer is accepted exactly when it is the concatenation of length-prefixed valid UTF-8 strings, and the returned list is that list in order; the list written by write_string_vec is read back unchanged.", "quantifier": "every buffer; every list of strings whose wire form is below 4 GiB", "why_tests_cant": "Lists of any length with any strings.", "anchors": ["src/ssh/writer.rs: Writer::write_string_vec", "src/ssh/cert.rs: read_principals"]}
{"id": "C13", "title": "Option maps survive serialisation in any iteration order", "statement": "Writing a HashMap of options or extensions with write_string_map and reading it back the way certificates do returns a map with the same entries, whatever order the map iterates in, and the declared total length is the exact number of bytes that follow.", "quantifier": "every string map below 4 GiB and every iteration order", "why_tests_cant": "HashMap iteration order is randomised per process; tests see one order at a time.", "anchors": ["src/ssh/writer.rs: Writer::write_string_map", "src/ssh/cert.rs: read_options"]}
{"id": "C14", "title": "Duplicate option names resolve to the last entry", "statement": "When a certificate options buffer lists a name several times the parsed map holds the value of the last occurrence, holds each name once, and holds no name that is not listed.", "quantifier": "every accepted options buffer", "why_tests_cant": "All buffers with arbitrary repetition.", "anchors": ["src/ssh/cert.rs: read_options"]}
{"id": "C15", "title": "Base64 text round trips", "statement": "Decoding the standard padded base64 text of any bytes gives the bytes back; the text has length 4*ceil(n/3) and uses only the standard alphabet and '='.", "quantifier": "every byte string", "why_tests_cant": "All lengths modulo 3 and all contents.", "anchors": ["src/ssh/pubkey.rs: PublicKey::from_string, Display", "src/ssh/cert.rs: Certificate::from_string", "src/ssh/signature.rs: SshSignature::from_armored_string", "base64 0.13 encode/decode (dependency)"]}
{"id": "C16", "title": "Base64 decoding is injective up to padding", "statement": "Two texts that decode to the same bytes differ at most in trailing '=' characters, so the text of a key or certificate cannot be altered otherwise without altering its bytes.", "quantifier": "every pair of strings", "why_tests_cant": "A malleability claim over all pairs of texts.", "anchors": ["base64 0.13 decode (dependency), used by src/ssh/pubkey.rs: from_string and src/ssh/cert.rs: from_string"]}
{"id": "C17", "title": "Key type names map to consistent descriptions", "statement": "KeyType::from_name(n) succeeds for exactly the sixteen supported names; the result's name is n; its plain name is itself a supported non-certificate type with the same hardware flag that is its own plain name; is_cert holds exactly for the names containing -cert-v01; is_sk exactly for names starting with sk-. Every other name yields UnknownKeyType carrying that name.", "quantifier": "every string", "why_tests_cant": "The rejection half ranges over all strings.", "anchors": ["src/ssh/keytype.rs: KeyType::from_name"]}
{"id": "C18", "title": "Certificate names can always be derived", "statement": "For every key type obtained from KeyType::from_name, as_cert_name() does not panic and names a supported certificate type with the same plain name and hardware flag; taking the certificate name again does not change it.", "quantifier": "every key type the library can return", "why_tests_cant": "as_cert_name slices a string by a computed length.", "anchors": ["src/ssh/keytype.rs: KeyType::as_cert_name, as_pubkey_name"]}
{"id": "C19", "title": "Curve identifiers are exact", "statement": "Curve::from_identifier succeeds exactly for nistp256, nistp384 and nistp521, returns a curve whose identifier is the argument, and distinct identifiers give distinct curve kinds.", "quantifier": "every string", "why_tests_cant": "Rejection ranges over all strings.", "anchors": ["src/ssh/keytype.rs: Curve::from_identifier"]}
{"id": "C20", "title": "A public key blob parses back to the key", "statement": "For every public key value consistent with its key type, PublicKey::from_bytes(key.encode()) succeeds, and yields the same key material, curve and application, the plain key type and no comment; RSA numbers come back without leading zero bytes. Extra bytes after the blob do not change the result.", "quantifier": "every public key (RSA, ECDSA, Ed25519, with or without hardware application), any trailing bytes", "why_tests_cant": "All key contents and sizes.", "anchors": ["src/ssh/pubkey.rs: PublicKey::encode, from_bytes, from_reader", "src/ssh/writer.rs: write_pub_key_data"]}
{"id": "C21", "title": "Accepted public key blobs are canonical", "statement": "If PublicKey::from_bytes(b) succeeds with a key whose type name is a plain name, then b is exactly key.encode() followed by ignored trailing bytes; hence two different blobs of which neither has trailing bytes never parse to the same key.", "quantifier": "every byte string", "why_tests_cant": "A statement about all accepted inputs.", "anchors": ["src/ssh/pubkey.rs: PublicKey::from_bytes, encode"]}
{"id": "C22", "title": "Public key parsing and encoding never panic", "statement": "PublicKey::from_bytes and from_string return Ok or Err for every input, and encode(), fingerprint() and Display of a key that was parsed never panic.", "quantifier": "every byte string and every string", "why_tests_cant": "encode unwraps an optional application; all accepted keys must carry it.", "anchors": ["src/ssh/pubkey.rs: PublicKey::from_string, from_bytes, encode, fingerprint", "src/ssh/writer.rs: write_pub_key_data"]}
{"id": "C23", "title": "The text form of a public key round trips", "statement": "For a key whose type name is its plain name and whose comment is absent or a single word, from_string(to_string(key)) returns the same key (RSA numbers without leading zeros). A comment of several words is cut after its first word. A key whose type name is not plain (certificate names, rsa-sha2-256/512) prints a line that from_string rejects with KeyTypeMismatch.", "quantifier": "every public key and comment", "why_tests_cant": "All keys and all comments, including Unicode white space.", "anchors": ["src/ssh/pubkey.rs: Display for PublicKey, PublicKey::from_string, write"]}
{"id": "C24", "title": "The label in front of a key must match the blob", "statement": "PublicKey::from_string succeeds only if the first word equals the key type name stored in the base64 blob; in particular a blob cannot be relabelled. Missing words give InvalidFormat.", "quantifier": "every string", "why_tests_cant": "Universally quantified over labels and blobs.", "anchors": ["src/ssh/pubkey.rs: PublicKey::from_string"]}
{"id": "C25", "title": "Fingerprints identify key material", "statement": "fingerprint() is the unpadded base64 digest of the encoded key: it ignores comments, its text never contains '=', and if two parsed keys of plain type have the same SHA-256 fingerprint then they are the same key up to comment or an explicit SHA-256 collision has been found.", "quantifier": "every pair of public keys, every digest function with fixed-size output", "why_tests_cant": "A relational property over all pairs of keys.", "anchors": ["src/ssh/pubkey.rs: PublicKey::fingerprint, fingerprint_with, Fingerprint::compute"]}
{"id": "C26", "title": "Reported key sizes", "statement": "bits() is 8 times the length of the RSA modulus magnitude, 256/384/521 for the NIST curves and 256 for Ed25519.", "quantifier": "every public key", "why_tests_cant": "All moduli.", "anchors": ["src/ssh/pubkey.rs: PublicKey::bits"]}
{"id": "C27", "title": "A certificate line read as a public key yields the nonce, not the key", "statement": "PublicKey::from_string and from_bytes accept certificate type names: given the blob of any Ed25519 certificate they do not reject it, and the returned public key bytes are the certificate's nonce, not the certified key.", "quantifier": "every Ed25519 certificate blob", "why_tests_cant": "A negative finding that holds for all Ed25519 certificates, whatever nonce and key.", "anchors": ["src/ssh/pubkey.rs: PublicKey::from_bytes, from_reader", "src/ssh/cert.rs: Certificate::tbs_certificate"]}
{"id": "C28", "title": "Signature verification accepts exactly primitive-accepted signatures", "statement": "verify_signature (through Certificate and SSHSIG parsing) accepts a signature blob exactly when it frames a known signature type of the key's kind with a payload that the corresponding primitive (Ed25519, ECDSA P-256/P-384 fixed form, RSA PKCS#1 with SHA-1/256/512) accepts for the key bytes and the right message; no other input is accepted.", "quantifier": "every signature blob, message, public key and every behaviour of the cryptographic primitives", "why_tests_cant": "Soundness over all malformed blobs and all primitives.", "anchors": ["src/ssh/signature.rs: verify_signature"]}
{"id": "C29", "title": "Signature verification never panics", "statement": "Verifying any signature blob over any message with any public key ends with Ok or Err.", "quantifier": "every blob, message and key", "why_tests_cant": "The r/s padding arithmetic depends on attacker-chosen lengths.", "anchors": ["src/ssh/signature.rs: verify_signature"]}
{"id": "C30", "title": "ECDSA r and s keep their value when padded", "statement": "The fixed-size signature handed to the ECDSA primitive is r and s left-padded with zeros to 32 bytes (P-256) or 48 bytes (P-384) each, so it denotes the same integers; larger r or s are rejected; nistp521 signatures are rejected with KeyTypeMismatch.", "quantifier": "every pair of mpints", "why_tests_cant": "All lengths of r and s.", "anchors": ["src/ssh/signature.rs: verify_signature"]}
{"id": "C31", "title": "Hardware-key signatures bind application, flags and counter", "statement": "For a key with an application the verified message is SHA256(application) || flags || be32(counter) || SHA256(message) with flags and counter taken from the signature blob; the construction is injective given the digests, so flags and counter cannot be changed under a signature.", "quantifier": "every application, flags byte, counter, message and digest function with 32-byte output", "why_tests_cant": "A binding property over all values.", "anchors": ["src/ssh/signature.rs: verify_signature"]}
{"id": "C32", "title": "The signature label only has to match the key's kind", "statement": "verify_signature compares only the kind of the signature label with the kind of the key: for a plain Ed25519 (or ECDSA P-256) key the hardware label sk-... and the plain label select the same check, and for a hardware key the plain label is accepted with the hardware message format; labels of another kind are rejected with KeyTypeMismatch.", "quantifier": "every key, message and signature payload", "why_tests_cant": "Quantifies over all payloads and keys.", "anchors": ["src/ssh/signature.rs: verify_signature"]}
{"id": "C33", "title": "DER signature conversion is total", "statement": "Converting any byte string as an ASN.1 ECDSA signature returns Some or None and never panics; a well-formed DER sequence of two short-form INTEGERs is split into exactly its two integer contents.", "quantifier": "every byte string", "why_tests_cant": "Index arithmetic on attacker-chosen lengths.", "anchors": ["src/utils.rs: asn_der_to_r_s, signature_convert_asn1_ecdsa_to_ssh"]}
{"id": "C34", "title": "Signatures made by DER signers verify", "statement": "For every P-256 or P-384 key and every DER signature of positive integers r, s that fit the curve size, the SSH signature blob built by format_signature_for_ssh is accepted by verification exactly when the primitive accepts r||s in fixed-size form.", "quantifier": "every r, s, key and message", "why_tests_cant": "All byte lengths of r and s, including those with leading zero bytes.", "anchors": ["src/utils.rs: format_signature_for_ssh, signature_convert_asn1_ecdsa_to_ssh", "src/ssh/signature.rs: verify_signature"]}
{"id": "C35", "title": "An accepted certificate carries a valid CA signature over all its fields", "statement": "If Certificate::from_bytes(data) succeeds then data is signed-part || be32(len sig) || sig || rest, the CA key in the certificate verifies sig over exactly signed-part, and every field of the certificate except the signature bookkeeping is the decoding of signed-part alone.", "quantifier": "every byte string, every behaviour of the cryptographic primitives", "why_tests_cant": "All inputs, including every mutation of a valid certificate.", "anchors": ["src/ssh/cert.rs: Certificate::from_bytes", "src/ssh/signature.rs: verify_signature"]}
{"id": "C36", "title": "Certificate fields are a function of the signed bytes", "statement": "Two accepted certificates with the same signed part agree on every field covered by the signature (key type, nonce, key, serial, type, key id, principals, validity, options, extensions, reserved, CA key).", "quantifier": "every pair of accepted certificates", "why_tests_cant": "Relational property over pairs.", "anchors": ["src/ssh/cert.rs: Certificate::from_bytes"]}
{"id": "C37", "title": "Certificate parsing never panics and only certificate types are accepted", "statement": "Certificate::from_bytes and from_string return Ok or Err for every input; a blob whose type is a known non-certificate type gives NotCertificate; a certificate type number other than 1 or 2 gives InvalidCertType with that number.", "quantifier": "every byte string and every string", "why_tests_cant": "All inputs.", "anchors": ["src/ssh/cert.rs: Certificate::from_bytes, from_string, CertType"]}
{"id": "C38", "title": "Issued certificates parse back to what was requested", "statement": "For every sequence of builder calls, if add_signature succeeds then Certificate::from_bytes of the serialised certificate succeeds and returns the requested serial, type, key id, principals, validity window, options, extensions, nonce, key material and CA key material; only the reserved bytes (always empty), comments and key type aliases differ. A CA key that holds RSA numbers with leading zeros (which no parser returns) needs a primitive that accepts the signature for the same numbers without them; else the issued certificate can be refused (refuted).", "quantifier": "every subject key, CA key, builder call sequence, map iteration order and signature", "why_tests_cant": "Histories of builder calls and all field values.", "anchors": ["src/ssh/cert.rs: Certificate::builder, setters, tbs_certificate, add_signature, from_bytes"]}
{"id": "C39", "title": "add_signature never produces an unverifiable certificate", "statement": "Certificate::add_signature(sig) succeeds only if the CA key verifies sig over the to-be-signed bytes; on success the serialised certificate is those bytes followed by the length-prefixed signature; sign() fails with SigningError when the signer declines and with an error whenever the signer returns a signature that does not verify.", "quantifier": "every certificate, signer and signature", "why_tests_cant": "All signers, including faulty or malicious ones.", "anchors": ["src/ssh/cert.rs: Certificate::add_signature, sign"]}
{"id": "C40", "title": "To-be-signed bytes determine the certificate", "statement": "Two certificates under construction with the same to-be-signed bytes request the same fields, so a CA signature for one can never be transplanted onto a certificate with different serial, principals, validity, options, key or CA.", "quantifier": "every pair of certificates under construction below 4 GiB", "why_tests_cant": "Injectivity over all pairs.", "anchors": ["src/ssh/cert.rs: Certificate::tbs_certificate"]}
{"id": "C41", "title": "Builder calls have last-call-wins semantics", "statement": "After any sequence of builder calls each field holds the value of the last call that set it (or its initial value), principals and options/extensions accumulate single additions since the last whole replacement, an option inserted later overrides an earlier one of the same name, and the subject key, CA key and nonce never change.", "quantifier": "every sequence of builder calls", "why_tests_cant": "Histories of unbounded length.", "anchors": ["src/ssh/cert.rs: Certificate::builder, serial, key_id, principal, set_principals, valid_after, valid_before, critical_option, set_critical_options, extension, set_extensions"]}
{"id": "C42", "title": "Certificate text round trips", "statement": "For every accepted certificate c, from_string(\"{type} {base64} {key_id}\") - its Display form - succeeds and returns c with the comment replaced by the first word of the key id (none if it has no word).", "quantifier": "every accepted certificate", "why_tests_cant": "All key ids including white space and newlines.", "anchors": ["src/ssh/cert.rs: Display for Certificate, Certificate::from_string"]}
{"id": "C43", "title": "Serialised certificate bytes are kept verbatim", "statement": "For every accepted input, the certificate's serialized bytes equal the input, including ignored trailing bytes: appending bytes to an accepted certificate yields another accepted certificate with the same fields.", "quantifier": "every accepted certificate and every suffix", "why_tests_cant": "All suffixes.", "anchors": ["src/ssh/cert.rs: Certificate::from_bytes"]}
{"id": "C44", "title": "The text label of a certificate is only checked by kind", "statement": "Certificate::from_string compares only the kind of the label with the kind inside the blob: a label of the same kind but a different type is accepted, a label of another kind is rejected with KeyTypeMismatch, an unknown label with UnknownKeyType.", "quantifier": "every label and blob", "why_tests_cant": "All labels and blobs.", "anchors": ["src/ssh/cert.rs: Certificate::from_string"]}
{"id": "C45", "title": "Certificate and SSHSIG signatures are domain separated", "statement": "The bytes signed for a file signature (SSHSIG) and the bytes signed for a certificate are never equal, so a CA can never be tricked into issuing a certificate by signing a file, or the reverse.", "quantifier": "every certificate under construction, namespace, hash algorithm and message", "why_tests_cant": "Disjointness of two infinite sets.", "anchors": ["src/ssh/signature.rs: SshSignature::to_signed_format", "src/ssh/cert.rs: Certificate::tbs_certificate"]}
{"id": "C46", "title": "An armored signature round trips", "statement": "For every signature over a non-empty namespace whose public key has no comment, from_armored_string(to_string(sig)) returns the same signature; every line of the body is at most 76 characters.", "quantifier": "every signature value", "why_tests_cant": "All blob lengths relative to the line width.", "anchors": ["src/ssh/signature.rs: Display for SshSignature, SshSignature::from_armored_string, from_reader"]}
{"id": "C47", "title": "Armored signature parsing is strict and total", "statement": "from_armored_string never panics; it accepts only texts with the BEGIN line first, an END line, the SSHSIG magic, version 1, a non-empty namespace and a sha256 or sha512 hash algorithm; a different version or an unknown hash gives Unsupported, a wrong magic or an empty namespace InvalidFormat, a missing BEGIN or END line InvalidFormat, a body that is not base64 a decoding error.", "quantifier": "every string", "why_tests_cant": "All inputs.", "anchors": ["src/ssh/signature.rs: SshSignature::from_armored_string, from_reader, HashAlgorithm"]}
{"id": "C48", "title": "A verified file signature binds message, namespace and signer", "statement": "VerifiedSshSignature::from_ssh_signature(m, sig, ns, key) succeeds only if sig's namespace is ns, the expected key (when given) equals sig's key, and sig's key verifies sig's blob over \"SSHSIG\" || ns || \"\" || hash || H(m); every other case fails with InvalidSignature.", "quantifier": "every message, signature, namespace, expected key and behaviour of the primitives", "why_tests_cant": "All inputs.", "anchors": ["src/ssh/signature.rs: VerifiedSshSignature::from_ssh_signature"]}
{"id": "C49", "title": "The signed SSHSIG payload is unambiguous", "statement": "If the signed payloads of two (namespace, hash algorithm, message) triples are equal then namespaces and algorithms are equal and the messages have the same digest.", "quantifier": "every pair of triples with namespaces below 4 GiB", "why_tests_cant": "Injectivity.", "anchors": ["src/ssh/signature.rs: SshSignature::to_signed_format"]}
{"id": "C50", "title": "new_with_private_key only returns verified signatures", "statement": "VerifiedSshSignature::new_with_private_key returns Ok only if the produced signature verifies for the private key's public key over the payload for the namespace and the requested hash algorithm (sha512 when none is requested); a signer that refuses gives SigningError, a signature that does not verify InvalidSignature; it accepts the empty namespace although the text form of that signature is then rejected by the parser.", "quantifier": "every key, message, namespace and signer behaviour", "why_tests_cant": "All signers.", "anchors": ["src/ssh/signature.rs: VerifiedSshSignature::new_with_private_key"]}
{"id": "C51", "title": "An expected key with a comment never matches", "statement": "from_ssh_signature compares the expected key including its comment; since parsed signatures carry keys without comments, every expected key with a comment is rejected with InvalidSignature even when the key material is the signer's.", "quantifier": "every parsed signature, message and commented key", "why_tests_cant": "Holds for all signatures.", "anchors": ["src/ssh/signature.rs: VerifiedSshSignature::from_ssh_signature", "src/ssh/pubkey.rs: PartialEq for PublicKey"]}
{"id": "C52", "title": "Private keys round trip through their encoding", "statement": "For every unencrypted private key consistent with its type, encode() followed by the file parser returns the same key (RSA CRT exponents recomputed), any trailing bytes ignored.", "quantifier": "every private key", "why_tests_cant": "All key contents.", "anchors": ["src/ssh/privkey.rs: PrivateKey::encode, from_reader, read_private_key"]}
{"id": "C53", "title": "Private key text round trips", "statement": "For every such key the text written by write() is accepted by from_string and yields the same key; body lines are at most 70 characters.", "quantifier": "every private key", "why_tests_cant": "All lengths relative to the line width.", "anchors": ["src/ssh/privkey.rs: PrivateKey::write, from_string"]}
{"id": "C54", "title": "Re-serialising an unencrypted key reproduces the file", "statement": "If an unencrypted private key blob is accepted, has no KDF options, standard padding, no trailing bytes and (for hardware keys) an empty reserved field, then encode() returns exactly the original bytes.", "quantifier": "every accepted blob", "why_tests_cant": "Byte-for-byte equality over all accepted inputs.", "anchors": ["src/ssh/privkey.rs: PrivateKey::encode, from_reader"]}
{"id": "C55", "title": "Accepted private keys match their public part", "statement": "Every accepted private key file holds exactly one key, equal check integers, and an inner public key equal to the outer public key, which is the one returned.", "quantifier": "every byte string and passphrase", "why_tests_cant": "All inputs.", "anchors": ["src/ssh/privkey.rs: PrivateKey::from_reader"]}
{"id": "C56", "title": "Encryption handling of private key files", "statement": "An unencrypted file parses the same with or without a passphrase; an aes256-ctr/bcrypt file without a passphrase gives EncryptedPrivateKey; any other cipher/KDF pair gives EncryptedPrivateKeyNotSupported; with a passphrase the key returned is the parse of the decrypted section, and decrypted check integers that differ are rejected.", "quantifier": "every file, passphrase and every behaviour of the KDF and cipher", "why_tests_cant": "All files and passphrases.", "anchors": ["src/ssh/privkey.rs: PrivateKey::from_reader, decrypt path"]}
{"id": "C57", "title": "Private section padding", "statement": "The private section produced by encode() has a length divisible by 8 and ends with the padding 1, 2, 3, ... of fewer than 8 bytes.", "quantifier": "every private key", "why_tests_cant": "All lengths modulo 8.", "anchors": ["src/ssh/privkey.rs: PrivateKey::encode"]}
{"id": "C58", "title": "Private key parsing panics only on degenerate RSA primes", "statement": "Parsing any private key text or blob returns Ok or Err, except that with RSA signing enabled a file whose RSA prime p or q is 0 or 1 panics; the panic is reachable from a well-formed file.", "quantifier": "every input", "why_tests_cant": "All inputs.", "anchors": ["src/ssh/privkey.rs: PrivateKey::from_string, read_private_key"]}
{"id": "C59", "title": "Signing panics exactly on malformed key bytes", "statement": "Signing with an accepted private key panics exactly when an Ed25519 secret is shorter than 32 bytes or a P-256/P-384 ECDSA secret is empty (the parser accepts both), or when the mozilla hardware backend itself panics.", "quantifier": "every accepted private key and message", "why_tests_cant": "All accepted keys.", "anchors": ["src/ssh/privkey.rs: SSHCertificateSigner for PrivateKey::sign"]}
{"id": "C60", "title": "RSA CRT exponents", "statement": "With RSA signing enabled a parsed RSA key holds exponents d mod (p-1) and d mod (q-1).", "quantifier": "every accepted RSA key", "why_tests_cant": "All RSA keys.", "anchors": ["src/ssh/privkey.rs: read_private_key"]}
{"id": "C61", "title": "PIN and device path never leak into the file", "statement": "set_pin and set_device_path change only hardware keys and never change encode(), write() or the public key.", "quantifier": "every key, pin and path", "why_tests_cant": "Non-interference over all values.", "anchors": ["src/ssh/privkey.rs: PrivateKey::set_pin, set_device_path, encode"]}
{"id": "C62", "title": "Accepted allowed-signer entries are well-formed", "statement": "Every accepted allowed_signers line has at least one principal, no empty principal, valid-after strictly before valid-before when both are given, and a key that PublicKey::from_string accepts from the line's last two words.", "quantifier": "every line and local time zone", "why_tests_cant": "All lines.", "anchors": ["src/ssh/allowed_signer.rs: AllowedSigner::from_string"]}
{"id": "C63", "title": "Allowed-signer options", "statement": "Option names are matched case-insensitively; repeating namespaces, valid-after or valid-before is rejected with DuplicateOptions; cert-authority may repeat; namespaces drops empty items; an unknown option ends option parsing and the line is rejected.", "quantifier": "every line", "why_tests_cant": "All option sequences.", "anchors": ["src/ssh/allowed_signer.rs: AllowedSigner::from_string"]}
{"id": "C64", "title": "Allowed-signer timestamps denote the written instant", "statement": "A timestamp YYYYMMDD, YYYYMMDDHHMM or YYYYMMDDHHMMSS in digits with Z suffix denotes exactly that UTC instant of the proleptic Gregorian calendar as unix seconds (second 60 is accepted in every minute and counts as 59), later written times denote later instants, and digit strings that are not a calendar date and time of day are rejected with InvalidTimestamp.", "quantifier": "every digit string of the three lengths", "why_tests_cant": "All dates, leap years and boundaries.", "anchors": ["src/ssh/allowed_signer.rs: parse_timestamp"]}
{"id": "C65", "title": "Local timestamps panic in clock changes", "statement": "Without Z the time zone decides: a local time that exists once gives that instant, and a local time that is skipped or repeated by a clock change panics.", "quantifier": "every timestamp and every time zone", "why_tests_cant": "Depends on the host time zone.", "anchors": ["src/ssh/allowed_signer.rs: parse_timestamp"]}
{"id": "C66", "title": "An allowed_signers file is its lines", "statement": "AllowedSigners::from_string returns the entries of the non-blank, non-comment lines in order if all are accepted, and otherwise the error of the first rejected line together with its zero-based line number. Line breaks are LF or CRLF and white space around a line is dropped first.", "quantifier": "every text", "why_tests_cant": "Files of any length.", "anchors": ["src/ssh/allowed_signer.rs: AllowedSigners::from_string"]}
{"id": "C67", "title": "Printed allowed-signer entries", "statement": "Printing an entry without time bounds whose principals and namespaces are plain words and whose key is plain and uncommented gives a line that parses back to the same entry. A time bound is printed as decimal unix seconds but read back as a calendar time: the printed line is rejected with InvalidOption unless the number has 8, 12 or 14 digits, and for some instants it is accepted with a different instant.", "quantifier": "every such entry", "why_tests_cant": "All entries.", "anchors": ["src/ssh/allowed_signer.rs: Display for AllowedSigner, AllowedSigner::from_string"]}
{"id": "C68", "title": "A comment ending in a quote breaks a line", "statement": "A line that ends in a double quote is never accepted; so appending a comment that ends in a double quote to an accepted allowed_signers line makes it rejected, although any other comment leaves the result unchanged.", "quantifier": "every accepted line and comment", "why_tests_cant": "All lines and comments.", "anchors": ["src/ssh/allowed_signer.rs: AllowedSignerSplitter::next, trim"]}
{"id": "C69", "title": "Allowed-signer parsing panics only through the time zone", "statement": "Parsing any allowed_signers line or file returns Ok or Err unless a local timestamp falls into a clock change.", "quantifier": "every text and time zone", "why_tests_cant": "All texts.", "anchors": ["src/ssh/allowed_signer.rs: AllowedSigner::from_string, AllowedSignerSplitter"]}
{"id": "C70", "title": "Authenticator data is parsed by position", "statement": "AuthData::parse never panics and succeeds exactly on data laid out as 32-byte rp hash, flags with the attested-data bit, 4-byte counter, 16-byte AAGUID, 2-byte length, credential id of that length and a definite COSE map of at most 256 entries, whatever follows; the returned fields are those bytes and the last entry of each kind in the map. Data that ends early is refused with the name of the first part cut off, and data without the attested-data bit with ParsingError.", "quantifier": "every byte string", "why_tests_cant": "All inputs.", "anchors": ["src/fido/parsing.rs: AuthData::parse"]}
{"id": "C71", "title": "Authenticator public keys", "statement": "For parsed data whose algorithm is EdDSA (-8) the SSH public key is the sk-ssh-ed25519 key holding the map's coordinate and the given application; for ES256 (-7) it is an sk-ecdsa key holding only the last coordinate, so with 32-byte coordinates its encoding is never the one OpenSSH has for the credential (04, x, y); any other algorithm gives ParsingError.", "quantifier": "every authenticator data blob", "why_tests_cant": "All keys.", "anchors": ["src/fido/parsing.rs: AuthData::parse, ssh_public_key"]}
{"id": "C72", "title": "FIDO attestation verification is sound", "statement": "verify_auth_data accepts exactly when the algorithm is ES256, the given (or default) root signed the intermediate certificate, the intermediate's key signed auth_data || challenge and auth_data parses; it reports the parsed data and the last well-formed firmware, AAGUID and transports extensions of the intermediate. Bad signatures give InvalidSignature, other algorithms Unsupported or InvalidFormat, and nothing panics. The border between auth_data and challenge is not signed, the certificate's AAGUID is not compared with the data's, and internal USB is never reported.", "quantifier": "every input and behaviour of the X.509 primitives", "why_tests_cant": "All inputs.", "anchors": ["src/fido/verification.rs: verify_auth_data, extract_certificate_extension_data"]}
{"id": "C73", "title": "YubiKey attestation verification is sound", "statement": "verify_certificate_chain accepts exactly when the given (or default) root signed the intermediate, the intermediate signed the client certificate, the client key is a P-256 or P-384 key and the client's last well-formed firmware, serial and policy extensions are present; these and the key are what it reports. A bad signature gives InvalidSignature, and nothing else does; any other failure is a parsing error. It panics exactly on an unreadable root, or on a verified client whose policy extension has less than two bytes.", "quantifier": "every input and behaviour of the X.509 primitives", "why_tests_cant": "All inputs.", "anchors": ["src/yubikey/verification.rs: verify_certificate_chain, extract_certificate_extension_data"]}
{"id": "C74", "title": "X.509 keys convert to SSH keys by curve", "statement": "A certificate, a signing request or a DER public key is converted exactly when it holds an EC key on P-256 or P-384, into the ECDSA SSH key of that curve with the same point; RSA gives Unsupported (in certificates and requests), another curve KeyTypeMismatch, anything else ParsingError, and nothing panics.", "quantifier": "every certificate and SPKI content", "why_tests_cant": "All inputs.", "anchors": ["src/x509/mod.rs: convert_x509_pki_to_pubkey, der_encoding_to_ssh_public_key"]}
{"id": "C75", "title": "Signatures made with a private key verify", "statement": "If the signing primitives and devices answer with signatures that verify under the public key they are given, every signature produced by signing with a key read from a file (after any set_pin and set_device_path calls) is accepted by verify_signature for that key and message, for keys whose type name goes with their curve; for a P-384 key under the P-256 name it is not.", "quantifier": "every private key accepted from text, every message, every behaviour of the primitives that satisfies the stated law", "why_tests_cant": "Needs every key, message and primitive answer, and the hardware paths cannot run in a test.", "anchors": ["src/ssh/privkey.rs: SSHCertificateSigner::sign", "src/fido/signing", "src/utils.rs: format_signature_for_ssh", "src/ssh/signature.rs: verify_signature"]}
{"id": "C76", "title": "Generated keys are usable and storable", "statement": "PrivateKey::new for Ed25519 yields a key with the generated seed, its public key, type ssh-ed25519 and the given comment, and writing it to text and reading it back gives the same key; other key kinds are refused with an error. The secret field is the bare seed, not OpenSSH's seed and public key.", "quantifier": "every comment and every output of the random generator", "why_tests_cant": "Random inputs.", "anchors": ["src/ssh/privkey.rs: PrivateKey::new"]}
{"id": "C77", "title": "RSA signing hands over exactly the key's numbers", "statement": "Signing with an RSA key passes to the primitive the one DER encoding of RSAPrivateKey with version 0, n, e, d, p, q, d mod (p-1), d mod (q-1) and the stored coefficient, and wraps the answer as rsa-sha2-512; without RSA support signing yields no signature.", "quantifier": "every RSA key accepted from a file, every message", "why_tests_cant": "DER lengths and leading zeros depend on every size and top bit of nine numbers.", "anchors": ["src/ssh/privkey.rs: ToASN1 for RsaPrivateKey, SSHCertificateSigner::sign"]}
{"id": "C78", "title": "ECDSA signing hands over the key's scalar", "statement": "For a scalar stored as an mpint the primitive receives the shortest big-endian bytes of the number and the public point of the key. So with a primitive that wants full-length scalars, a valid key whose scalar has leading zero bytes cannot sign.", "quantifier": "every ECDSA key accepted from a file, every message", "why_tests_cant": "One key in 256 has a short scalar; a test with a fixed key does not see it.", "anchors": ["src/ssh/privkey.rs: SSHCertificateSigner::sign"]}
{"id": "C79", "title": "A CA key issues certificates and file signatures that are accepted", "statement": "Signing a certificate under construction with the private key of its signature key succeeds whenever the primitive answers, and the certificate parses back as requested with that signature; a file signature made with the key is returned verified, for the requested namespace, hash and message.", "quantifier": "every key, request, message and iteration order of the maps", "why_tests_cant": "Composition over all requests and keys.", "anchors": ["src/ssh/cert.rs: sign", "src/ssh/signature.rs: new_with_private_key", "src/ssh/privkey.rs"]}
{"id": "C80", "title": "Diagnosis of rejected allowed-signer lines", "statement": "Every rejected allowed_signers line gives the error of its first mistake from the left: MissingPrincipals for a line without words, InvalidPrincipals for an empty principal, InvalidQuotes for wrong quotes, DuplicateOptions or InvalidOption with the option's name, MissingKey or InvalidKey for a missing or unreadable key, InvalidTimestamps for bounds out of order, and UnexpectedEnd for words after the key. Every line is accepted with one entry, rejected with one error, or panics.", "quantifier": "every line and time zone", "why_tests_cant": "All lines and combinations of mistakes.", "anchors": ["src/ssh/allowed_signer.rs: AllowedSigner::from_string, AllowedSignerSplitter, AllowedSignerParsingError"]}
{"id": "C81", "title": "A YubiKey slot signs the right digest or nothing", "statement": "sign_data reads the slot and asks the device to sign exactly when the requested algorithm is the one of the slot's key, giving it the digest that goes with it (SHA-256 for P-256 and RSA, SHA-384 for P-384) and the same slot; an unreadable slot gives Unprovisioned, another algorithm WrongKeyType, both without any signing operation on the device.", "quantifier": "every device behaviour, state, message, algorithm and slot", "why_tests_cant": "All device histories and slot contents; needs hardware.", "anchors": ["src/yubikey/piv/management.rs: sign_data, configured"]}
{"id": "C82", "title": "Signatures made by a YubiKey slot verify", "statement": "If the slot keeps its certificate and the device signs digests with that certificate's key, every blob returned by ssh_cert_signer is accepted by verify_signature for the message and the key returned by ssh_cert_fetch_pubkey; and a blob is returned whenever the device signs. If the slot changes while signing, the blob can be valid for neither key.", "quantifier": "every device that keeps its slot, message, both curves, every state", "why_tests_cant": "Needs hardware and a claim over all messages and signatures.", "anchors": ["src/yubikey/piv/ssh.rs: ssh_cert_signer, ssh_cert_fetch_pubkey, get_ssh_key_type", "src/utils.rs: format_signature_for_ssh"]}
{"id": "C83", "title": "Slots without a usable key are refused before signing", "statement": "ssh_cert_fetch_pubkey returns the SSH key of the slot's certificate exactly for keys on P-256 and P-384, and distinguishes other curves (WrongKeyType), RSA (Unsupported), unreadable certificates (ParsingError) and failing reads; ssh_cert_signer gives Unsupported for all of them, also for an empty slot, and never asks the device to sign; nothing panics whatever the device answers.", "quantifier": "every device behaviour, certificate parser, message and slot", "why_tests_cant": "All device answers and certificate contents.", "anchors": ["src/yubikey/piv/ssh.rs"]}
{"id": "C84", "title": "Issuing a certificate with a YubiKey gives a valid certificate or an error", "statement": "Certificate::sign with the YubiKey signer either returns the certificate carrying a signature that is valid for its CA key over the certificate's body, or SigningError when the device did not sign.", "quantifier": "every certificate, map order, device that keeps its slot and state", "why_tests_cant": "Needs hardware; all certificates.", "anchors": ["src/yubikey/piv/ssh.rs: ssh_cert_signer", "src/ssh/cert.rs: sign", "examples/sign-cert-with-yubikey.rs"]}
{"id": "C85", "title": "Provisioning returns the generated key", "statement": "provision generates a key with the given algorithm, PIN policy and touch policy, self-signs a certificate for exactly that key with the given name in the same slot, and returns the SSH form of that key; a failing step gives an error and no later step is run.", "quantifier": "every device whose self-signing stores the key it was given, slot, name, algorithm, policies and state", "why_tests_cant": "Needs hardware; orderings and failures at each step.", "anchors": ["src/yubikey/piv/management.rs: provision"]}
{"id": "C86", "title": "Unlocking checks the PIN before the management key", "statement": "unlock succeeds exactly when the PIN is verified and then the management key is accepted; after a wrong PIN the management key is not used, and an unusable management key gives InvalidManagementKey with the PIN already verified.", "quantifier": "every device behaviour, PIN, key and state", "why_tests_cant": "All failure points.", "anchors": ["src/yubikey/piv/management.rs: unlock"]}
{"id": "C87", "title": "Reconnecting keeps the same device", "statement": "reconnect keeps the connection if it can be revived, otherwise opens a new one by the same serial, and gives NoSuchYubikey leaving the old connection in place if that fails; the device's serial never changes.", "quantifier": "every device behaviour and state", "why_tests_cant": "All failure histories.", "anchors": ["src/yubikey/piv/management.rs: reconnect, open"]}
{"id": "C88", "title": "Signing requests are made for and by the slot's key", "statement": "generate_csr returns a request exactly when three connections agree on the slot's curve and the device signs; the request is for the slot's key and signed by it if the device keeps its slots. It panics exactly when the slot's key is on a curve but cannot be read so again on a second connection to the device.", "quantifier": "every device behaviour, request builder, name, slot and state", "why_tests_cant": "Needs hardware; histories of a device over three connections.", "anchors": ["src/yubikey/piv/management.rs: generate_csr, CSRSigner"]}
{"id": "C89", "title": "A new FIDO key is returned exactly with an attestation that checks", "statement": "generate_new_ssh_key returns a key exactly when the device (the one at the given path, if one is given) makes a credential for the application, challenge and PIN, its data can be parsed, and the attestation over data and challenge passes under the built-in root. The returned public key is the attested credential's with the application; flags, handle, comment, PIN and path are kept; the returned attestation passes verify() again and attests the returned key. Nothing panics after the device has answered. The application named in the data is not compared with the one asked for (refuted).", "quantifier": "every device answer, certificate parser, hash, application, comment, PIN, path and challenge", "why_tests_cant": "Needs hardware; tests see a few recorded attestations, not every answer a device could give.", "anchors": ["src/fido/generate/ctap2_hid.rs: generate_new_ssh_key", "src/fido/generate/mozilla.rs: generate_new_ssh_key", "src/fido/generate/mod.rs: U2FAttestation::verify"]}
{"id": "C90", "title": "New FIDO keys can be stored and used", "statement": "A newly generated key of an Ed25519 credential can be written and read back; only PIN and device path are lost. Signatures made with it, as returned, as read back, or after any set_pin and set_device_path, verify under its public key if the device signs for its handle. For a credential of another kind the key is named Ed25519 all the same and reads back as another kind (refuted).", "quantifier": "every generated key whose texts are UTF-8 and fit a file, every message and configuration", "why_tests_cant": "Ranges over all credentials, handles, comments and messages; needs hardware to generate.", "anchors": ["src/fido/generate/ctap2_hid.rs: generate_new_ssh_key", "src/fido/generate/mozilla.rs: generate_new_ssh_key", "src/ssh/privkey.rs: PrivateKey::write, from_string"]}
{"id": "C91", "title": "What a FIDO registration reports, and when it never returns", "statement": "In every interleaving of the library, the status thread and the caller, generate_new_ssh_key (mozilla) returns the checked result of the one registration, an unknown error if the callback was dropped, or, after a failed registration, the first PIN error that was reported; never the registration's own error. When nothing more can happen it has returned, unless the registration failed and no PIN error was reported: then it waits for ever (always returning is refuted). The program takes at most three steps more than there are statuses.", "quantifier": "every interleaving and every sequence of library events", "why_tests_cant": "Schedules of three threads and dropped channels; a hang shows only under some histories.", "anchors": ["src/fido/generate/mozilla.rs: generate_new_ssh_key"]}
{"id": "C92", "title": "The listing of a certificate can be trusted if its texts stay on their lines", "statement": "The alternate Display of a certificate is a fixed sequence of lines: type, key fingerprint, CA fingerprint and type, quoted key id, serial, validity, principals in order, critical options with values and extension names. Every parsed certificate is printed. If no text contains a line break and no option name a space, two certificates with the same listing agree on all of these (whatever the map order), certificates that agree on them have the same listings, and a line 'Valid: forever' appears exactly for validity 0 to 2^64-1. Without that condition a principal can pass for two and a key id can forge that line (refuted), and values of extensions never show (refuted).", "quantifier": "every certificate and map iteration order", "why_tests_cant": "Unambiguity relates all pairs of certificates; texts of any content and length.", "anchors": ["src/ssh/cert.rs: Display for Certificate, Display for CertType", "src/ssh/pubkey.rs: Fingerprint"]}
{"id": "C93", "title": "Printing a private key shows no secret", "statement": "Display of a private key gives SHA256:, the unpadded base64 digest of the encoded public key, a space and the comment. Private keys with the same public key and comment print alike whatever their secrets are.", "quantifier": "every private key", "why_tests_cant": "Absence of an influence of the secrets cannot be seen in single outputs.", "anchors": ["src/ssh/privkey.rs: Display for PrivateKey"]}
{"id": "C94", "title": "Error messages tell errors apart", "statement": "Two different errors of this crate have different messages, apart from errors whose text comes from elsewhere (I/O, base64, UTF-8, YubiKey library, CBOR and unknown FIDO errors; for these it is refuted). The message for a rejected allowed_signers file gives the number of lines before the first rejected one and that line's reason; so lines count from zero (counting from one is refuted).", "quantifier": "every pair of errors; every allowed_signers text", "why_tests_cant": "Ranges over all payload texts, numbers and files.", "anchors": ["src/error.rs: Display for Error", "src/ssh/allowed_signer.rs: Display for AllowedSignerParsingError, AllowedSigners::from_string", "src/fido/mod.rs: Display for Error", "src/yubikey/piv/mod.rs: Display for Error"]}
{"id": "C95", "title": "YubiKey calls only reach the device that was opened", "statement": "Every sequence of calls on a Yubikey handle, reconnects included, keeps the serial number it was opened with, and changes the world only by operations on that device, each of a kind the call stands for: PINs only from unlock, a management key only from unlock and only a well-formed one, changes only of the named slot, at most one signature. Anything that operations on this device do not change, such as other devices, is unchanged.", "quantifier": "every device behaviour in which opening by serial number opens that device, every list of calls with any arguments and outcomes, ended by a panic or not", "why_tests_cant": "Ranges over all histories, all failures and all device behaviours.", "anchors": ["src/yubikey/piv/management.rs: Yubikey", "src/yubikey/piv/ssh.rs: Yubikey"]}
{"id": "C96", "title": "PINs are sent once per unlock and never otherwise", "statement": "Over every sequence of calls the PINs that reach the device are exactly those passed to unlock, each once and in order, whatever succeeds or fails. So if a device loses at most one try per PIN it is sent, no sequence of calls costs more tries than it has unlock calls.", "quantifier": "every device behaviour, every list of calls", "why_tests_cant": "A retry in any error path of any history would block the device; tests only see the paths they take.", "anchors": ["src/yubikey/piv/management.rs: Yubikey::unlock, reconnect, provision, sign_data"]}
{"id": "C97", "title": "Only provisioning and writing change a slot, and only its own", "statement": "A sequence of calls without provision or write_certificate for a slot leaves everything about that slot unchanged. Each call makes at most one signature, with the slot it names, of the SHA-256 or SHA-384 digest of the data it was given (or of the request built for it). A call that reads a slot and succeeds tells about the certificate in that slot of that device (its subject, its bytes, its SSH key, the type of the key) and changes nothing, so two reads of a slot tell the same unless a call between them was to change it. An attestation is the one the device gives for the slot named.", "quantifier": "every device behaviour, every slot, every list of calls", "why_tests_cant": "Absence of an effect over all histories.", "anchors": ["src/yubikey/piv/management.rs: Yubikey::provision, write_certificate, sign_data, generate_csr", "src/yubikey/piv/ssh.rs: Yubikey::ssh_cert_signer"]}
{"id": "C98", "title": "Slots keep matching keys and certificates, except after failed provisioning", "statement": "If the certificate in a slot is for the key in it, this stays so through every sequence of calls, apart from write_certificate for that slot and provision for it that does not report success. A successful provision makes it so again. While it is so, a signature that ssh_cert_signer returns verifies under the key that ssh_cert_fetch_pubkey returns. Refuted without the exceptions: a failure inside provision after the key was generated, or writing a certificate for another key, leaves a slot whose signatures are returned as Ok and do not verify under the reported key.", "quantifier": "every device that stores keys and certificates per slot, every list of calls, every point of failure", "why_tests_cant": "Ranges over histories and over the points at which the device can fail.", "anchors": ["src/yubikey/piv/management.rs: Yubikey::provision, write_certificate", "src/yubikey/piv/ssh.rs: Yubikey::ssh_cert_signer, ssh_cert_fetch_pubkey"]}
{"id": "C99", "title": "Names of certificate types, and what the standard extensions permit", "statement": "CertType::try_from accepts exactly the texts user, User, host and Host, with the obvious meaning. Certificate::standard_extensions() is exactly the five login permissions (agent, port and X11 forwarding, pty, user rc), each with an empty value; a certificate issued after set_extensions(standard_extensions()), with no later call about extensions, is read back with exactly these. Refuted: the text printed for a certificate type can be read back.", "quantifier": "every string; every builder history, certificate authority key and signature", "why_tests_cant": "Rejection ranges over all strings, and the issued certificate over all requests.", "anchors": ["src/ssh/cert.rs: CertType::try_from, Certificate::standard_extensions, Certificate::set_extensions"]}
{"id": "C100", "title": "Key files that were written in part", "statement": "If writing a private key file stops after some bytes (full disk, crash), reading the file gives InvalidFormat, unless only the final newline is missing, when it gives the same key. If writing a public key file stops, reading it gives an error or the same key, at most with a cut comment; never another key. Refuted: a partly written public key file is always noticed. Writing reports success exactly if the whole text of the key was written; otherwise an I/O error is reported and a part was written.", "quantifier": "every storable key, every number of bytes after which writing stops, every passphrase", "why_tests_cant": "Ranges over all crash points of all keys.", "anchors": ["src/ssh/privkey.rs: PrivateKey::write, PrivateKey::from_path_with_passphrase", "src/ssh/pubkey.rs: PublicKey::write, PublicKey::from_path"]}
{"id": "C101", "title": "Files that were cut off are not read as something else", "statement": "If a text and a beginning of it are both accepted, they give the same key or certificate apart from a cut comment (and, for certificates, unsigned bytes behind the signature). A beginning of an accepted private key or signature armor is read as exactly the same value or fails with InvalidFormat.", "quantifier": "every accepted text, every beginning of it, every passphrase", "why_tests_cant": "Ranges over all texts and all places at which they can be cut.", "anchors": ["src/ssh/pubkey.rs: PublicKey::from_path", "src/ssh/cert.rs: Certificate::from_path", "src/ssh/privkey.rs: PrivateKey::from_string_with_passphrase", "src/ssh/signature.rs: SshSignature::from_armored_string"]}
{"id": "C102", "title": "A cut allowed-signers file never grants more", "statement": "If an allowed-signers file and a beginning of it are both accepted, the beginning gives the first entries of the file, the last of them at most with a cut key comment: principals, cert-authority, namespaces, times and key of each entry are as in the whole file. The same holds for a single entry. Refuted: a cut is always noticed (whole entries can be lost silently).", "quantifier": "every file content, every beginning of it, every time zone", "why_tests_cant": "Ranges over all files and all cuts; a cut inside an option list or a date could drop a restriction.", "anchors": ["src/ssh/allowed_signer.rs: AllowedSigners::from_path, AllowedSigners::from_string, AllowedSigner::from_string"]}
{"id": "C103", "title": "The program that issues a certificate with a key file", "statement": "If the program prints a text, its one line is accepted as a certificate: a user certificate, serial 0, key id \"key_id\", exactly the given principal, valid forever, no critical options, exactly the five standard permissions, for the key of the given public key file, signed by the key of the given private key file. It prints one whenever the files can be read, random bytes are available and the key signs. If the public key file holds an Ed25519 certificate the certified key is the nonce of that certificate. A hardware key is asked with exactly the PIN of the command line, or none if there is none. Refuted: a certificate file is certified for the key it certifies.", "quantifier": "every pair of files, every principal, every random bytes, every signing hardware", "why_tests_cant": "Ranges over all files, key types and principals.", "anchors": ["examples/sign-cert-with-file.rs: main", "src/ssh/cert.rs: Certificate::builder, Certificate::sign"]}
{"id": "C104", "title": "The program that signs a file with a key file", "statement": "If the program prints a text for a non-empty namespace, it is an armored signature with SHA-512 and exactly that namespace and key, and verification of the contents of the file under that namespace and key succeeds. It prints one whenever the files can be read and the key signs. A hardware key is asked with exactly the PIN of the command line, or none if there is none. Refuted: with an empty namespace the printed text can be read back.", "quantifier": "every pair of files, every namespace, every signing hardware", "why_tests_cant": "Ranges over all contents, keys and namespaces.", "anchors": ["examples/sign-file-with-file.rs: main", "src/ssh/signature.rs: VerifiedSshSignature::new_with_signature"]}
{"id": "C105", "title": "Names of YubiKey slots on the command line", "statement": "A slot text names slot 129+n if it is R followed by a decimal number n (optionally with +) of at most two characters and at most 20, and slot xy if it is 0x and two hexadecimal digits; it is accepted exactly if it names a slot the library knows, with that slot. It is refused exactly if it names no slot and is not 0x followed by two bytes that are not both hexadecimal digits. In all other cases (an unknown slot, bad hexadecimal digits) the check panics. Refuted: R0 is refused; a text that is no slot is always refused without a panic.", "quantifier": "every text, every set of slots the library knows", "why_tests_cant": "Ranges over all texts; a wrong boundary picks the wrong key.", "anchors": ["examples/sign-cert-with-yubikey.rs: slot_parser, slot_validator", "examples/yk-provision.rs: slot_parser, slot_validator"]}
{"id": "C106", "title": "The programs that show keys and certificates", "statement": "The certificate programs handle exactly the lines before the first empty line, in order: for each they print the listing of the certificate (or its certified key, which reads back as that key), or a message naming the line number; they never crash on a readable file. The key programs print the fingerprint and comment of the key and nothing secret. A DER key is printed as an SSH key that reads back as it, or as a message. Refuted: lines after an empty line are shown; every key printed was certified (a message can hold another line); the number printed before the fingerprint is the key size.", "quantifier": "every file, every iteration order, every error text", "why_tests_cant": "Ranges over all file contents, including hostile ones.", "anchors": ["examples/ssh-cert-info.rs: main", "examples/ssh-pubkey-from-cert.rs: main", "examples/ssh-pubkey-info.rs: main", "examples/ssh-pkey-info.rs: main", "examples/into-ssh-pubkey.rs: main"]}
{"id": "C107", "title": "Issuing a certificate with a YubiKey", "statement": "If the program prints a certificate, then it reads back, alone or as a file, as the certificate the command line asked for: the fixed serial number and key id, the principal given, all times, the standard extensions, the key of the file, and as issuer the key of the slot named. Whatever it does, printing or not, it touches no slot other than the one named, changes nothing on the device, and asks for at most one signature, which is over a digest of exactly such a certificate. It does print if the device is present, its slot does not change, and its signatures verify. Refuted: the key that signs is on the device whose key is named as issuer (the device is opened again to sign; the program then stops without printing).", "quantifier": "every device (any answers, any state), every slot text, key file, principal, random bytes, iteration order", "why_tests_cant": "Ranges over all behaviours of a hardware device, including devices being exchanged between two steps.", "anchors": ["examples/sign-cert-with-yubikey.rs: main, YubikeySigner::sign"]}
{"id": "C108", "title": "Provisioning a slot", "statement": "The program asks the device for the steps open, verify PIN, authenticate, generate, store certificate, read, in this order, each only if the one before succeeded, with the slot, PIN, management key, algorithm, touch policy and subject of the command line, and nothing else. If it prints a key, all steps were made, and the line printed reads back as the key in the certificate read from the slot; if the device stores what it is given, this is the key that was generated. If all steps succeed and the certificate read holds a P-256 or P-384 key, it prints.", "quantifier": "every device, every command line", "why_tests_cant": "Ranges over every device behaviour and every point where a step can fail.", "anchors": ["examples/yk-provision.rs: main, provision_new_key", "src/yubikey/piv/management.rs: Yubikey::unlock, Yubikey::provision"]}
{"id": "C109", "title": "The report on all YubiKey slots", "statement": "Making the report opens the device and reads and attests the listed slots, and does nothing else on any device. If the slots do not change meanwhile, the report has one line for each listed slot, in order: the digest of the SSH key of its certificate, whether it can be attested, and its subject; or that no certificate was found, exactly if there is no certificate with a P-256 or P-384 key. Refuted: a slot with a certificate is never reported as having none; each slot is listed once (9e is listed twice).", "quantifier": "every device and state, every content of the slots", "why_tests_cant": "Ranges over all contents of all slots and all device answers.", "anchors": ["examples/yk-fingerprint.rs: main", "src/yubikey/piv/management.rs: Yubikey::fetch_subject, Yubikey::fetch_attestation", "src/yubikey/piv/ssh.rs: Yubikey::ssh_cert_fetch_pubkey"]}
{"id": "C110", "title": "Recognising an issuer or signer by fingerprint", "statement": "If an accepted certificate names an issuer with the same fingerprint (of any of the three kinds) as a trusted public key that is not of a certificate type, then the certificate's signature is valid for the trusted key itself, or two different byte strings with the same digest exist. The same holds for the signer of an accepted file signature. The issuer of an accepted certificate is not of a certificate type unless it is a hardware key. Comparing the issuer with == to a key read from a line with a comment always fails. Refuted: the issuer is never of a certificate type.", "quantifier": "every certificate, signature, trusted key, digest and verification functions", "why_tests_cant": "Ranges over all accepted inputs, including forged key blobs made to share a fingerprint.", "anchors": ["src/ssh/cert.rs: Certificate::from_bytes, Certificate.signature_key", "src/ssh/pubkey.rs: PublicKey::fingerprint, PublicKey::encode, PartialEq", "src/ssh/signature.rs: VerifiedSshSignature::from_ssh_signature"]}
{"id": "C111", "title": "What is parsed holds no more than the input", "statement": "The variable-size fields of an accepted certificate, with four bytes for every principal and option, add up to at most the length of the bytes it was read from, and the copy it keeps is those bytes. The fields of a public key and of a file signature add up to at most the length of their blob or text, those of a private key to at most one and a half times its text (the RSA exponents are computed), those of all entries of an allowed-signers file together, with one byte for every principal and namespace, to at most the length of the file; there are no more entries than bytes. Refuted: a certificate with its copy, or a private key, never holds more bytes than its input.", "quantifier": "every input that is accepted, every time zone; for encrypted private keys, every cipher that keeps the length", "why_tests_cant": "Ranges over all inputs of all lengths, including ones crafted to make the parser allocate more than it was given.", "anchors": ["src/ssh/cert.rs: Certificate::from_bytes, Certificate::from_string", "src/ssh/pubkey.rs: PublicKey::from_bytes, PublicKey::from_string", "src/ssh/signature.rs: SshSignature::from_armored_string", "src/ssh/privkey.rs: PrivateKey::from_string_with_passphrase, PrivateKey::from_bytes", "src/ssh/allowed_signer.rs: AllowedSigner::from_string, AllowedSigners::from_string"]}
{"id": "C112", "title": "What hardware tokens are asked in a session", "statement": "Take a hardware key with any number of signing calls, PIN and device path changes, and anything else happening to the tokens in between. Each signing call opens the device at the path set last (ctap2-hid; otherwise one of those found then), asks it at most once for a signature of that message by the key's credential and application with the PIN set last, and wraps the last assertion it gives; the mozilla backend sends the SHA-256 of the message, ignores the path, and panics exactly when the request does not start or is dropped. No PIN is sent but the one the key had and those set. If the tokens' counters go up, the signatures of a session end in increasing counters and no two are equal. If the tokens sign with the key of the credential, every signature verifies for its message. Without a backend nothing is asked. Refuted: the PIN is only sent to a token that holds the credential; a mozilla session never panics.", "quantifier": "every world of tokens with any state, every hardware key, every list of operations of any length, every answer", "why_tests_cant": "Ranges over all histories of calls and over all behaviours of devices and of the environment between calls.", "anchors": ["src/fido/signing/ctap2_hid.rs: sign_with_private_key", "src/fido/signing/mozilla.rs: sign_with_private_key", "src/ssh/privkey.rs: PrivateKey::set_pin, PrivateKey::set_device_path, SSHCertificateSigner for PrivateKey"]}
{"id": "C113", "title": "new-fido-sshkey leaves a usable key or none", "statement": "When the device makes a credential of either kind (Ed25519 or ES256) and its attestation verifies, the program prints a public key line that reads back as the credential's key, and the private key text, printed or in the file, reads back as that key with the device's handle and flags, without PIN and path, named after its public key. If the file cannot take the whole text the program panics, and the file reads back as the same key (only the last newline missing) or is refused. Signatures made with the key of the file verify with the printed key. Output and file do not depend on the PIN and the path beyond what the device answers. Nothing but an error line appears, and no file, unless a device attested the key. Refuted: the exit status tells whether a key was made.", "quantifier": "every device behaviour, credential, attestation root, PIN, path, output target and every number of bytes the file takes before failing", "why_tests_cant": "Ranges over all devices and credentials and over every point at which writing can fail.", "anchors": ["examples/new-fido-sshkey.rs: main", "src/fido/generate/ctap2_hid.rs: generate_new_ssh_key", "src/fido/generate/mozilla.rs: generate_new_ssh_key", "src/ssh/privkey.rs: PrivateKey::write", "src/ssh/pubkey.rs: Display for PublicKey"]}
{"id": "C114", "title": "Dropped private keys leave no secret behind except replaced PINs and paths", "statement": "However private keys are made, cloned, changed and dropped, each variable holds the value it would hold if keys were plain values (clones share nothing). The memory of dropped keys is all zero; the only other bytes that stay in memory given back are the PINs and device paths that set_pin or set_device_path replaced while the key lived, once for each replacement. When the last key is dropped every buffer was given back. Refuted: nothing secret is left once all keys are dropped (a PIN that was corrected stays).", "quantifier": "every history of making, cloning, changing and dropping any number of keys of every kind", "why_tests_cant": "A test would have to inspect freed memory after every history of operations.", "anchors": ["src/ssh/privkey.rs: impl Drop for PrivateKey", "src/ssh/privkey.rs: PrivateKey::set_pin", "src/ssh/privkey.rs: PrivateKey::set_device_path", "src/ssh/privkey.rs: PrivateKeyKind"]}
{"id": "C115", "title": "A text of one kind is not read as another", "statement": "A private key or an armored signature is refused by every other reader (public key, certificate, allowed_signers file, and each other). A text that is read both as a certificate and as a public key shows a certificate type in the public key. A text that is read both as a public key or certificate and as an allowed_signers file or entry has an entry, the first, with white space inside a principal. Refuted: no text is both a public key and an allowed_signers file; with a tab after the key type one text gives two different keys.", "quantifier": "every UTF-8 text, and every feature set, passphrase, time zone and verification primitive for each of the two readings", "why_tests_cant": "Ranges over all texts and pairs of readers; the only overlap needs an unusual separator.", "anchors": ["src/ssh/pubkey.rs: PublicKey::from_string", "src/ssh/cert.rs: Certificate::from_string", "src/ssh/privkey.rs: PrivateKey::from_string_with_passphrase", "src/ssh/signature.rs: SshSignature::from_armored_string", "src/ssh/allowed_signer.rs: AllowedSigners::from_string", "src/ssh/allowed_signer.rs: AllowedSigner::from_string"]}
{"id": "C116", "title": "Asking about connected FIDO devices touches only the device asked about and never sends a PIN or asks for a signature", "statement": "With the ctap-hid-fido2 backend, for every program that lists devices, asks whether a device requires a PIN, asks for its remaining PIN attempts and signs with a key, in any order: the listing gives exactly the devices found that have a path, with their names and in the order found. A question about a path opens the device at that path and no other, asks it one thing, and the answer is what the device said, or FidoError::Unknown if it could not be opened, failed, or did not know. No question sends a PIN, asks for a signature, or changes the key. The requests and results of the signing calls are those of the signing calls alone. A key given the path of a listed device opens just that device to sign and does not look for others. With the authenticator backend the listing is empty, both questions fail, and nothing is asked. Not every device that signing can use is listed: one found only by vendor and product is missing.", "quantifier": "all worlds of devices, all programs of listings, questions, signatures and settings, all keys, both backends", "why_tests_cant": "the devices found and what they answer depend on hardware; that no PIN is sent must hold for every device, failure and order of calls", "anchors": ["src/fido/utils/ctap2_hid.rs: list_fido_devices, device_requires_pin, device_pin_retries", "src/fido/utils/mozilla.rs: list_fido_devices, device_requires_pin, device_pin_retries", "src/fido/utils/mod.rs: FidoDeviceDescriptor", "src/fido/signing/ctap2_hid.rs: sign_with_private_key", "src/ssh/privkey.rs: PrivateKey::set_device_path"]}
{"id": "C117", "title": "Changing, checking again and renewing a certificate that was read", "statement": "For every accepted certificate and every sequence of builder calls on it: the serialised bytes stay those that were read, so its text form still parses to the old certificate (only the word after the data comes from the new key id) until it is signed again. When add_signature or sign accepts a signature for the changed certificate, its bytes parse back to the old fields with the changes, with the same subject key; the reserved bytes are dropped and the CA key is named by its plain type. tbs_certificate() of an unchanged certificate gives the bytes that were signed exactly when the reserved field is empty, the CA key is under its plain name with nothing after it, and options and extensions are each listed once, without ignored bytes, in the order in which the maps iterate; then add_signature accepts the certificate's own signature again. If it accepts the old signature on a changed certificate, then no signed field differs or the signature is good for two different messages. That the signature can always be checked again over tbs_certificate() is false.", "quantifier": "all accepted certificates, all sequences of builder calls, all signatures, all iteration orders of the maps", "why_tests_cant": "ranges over all accepted byte strings, including ones other programs made in other orders and with reserved bytes, and over all call sequences and map orders", "anchors": ["src/ssh/cert.rs: Certificate::from_bytes, tbs_certificate, add_signature, sign, serial, key_id, valid_before, set_extensions, Display"]}
{"id": "C118", "title": "Debug output of a key gives all of it away", "statement": "Formatting a private key, a public key or a freshly generated FIDO key with {:?} gives exactly one text, fixed to the letter: the struct and field names in order, byte strings as decimal lists, texts in quotes with Rust's escapes. It leaves nothing out: two keys (or two freshly generated FIDO keys, or two public keys) with the same debug text are equal, whatever characters their texts contain. The secret numbers of the key and the handle of a hardware key stand in the text byte by byte under their field names, and a PIN that was set stands in it in clear. Display (C93) shows none of this.", "quantifier": "every key whose texts are Unicode, which includes every key that was read, with any PIN and device path set on it; every table of printable characters", "why_tests_cant": "That no two keys share a text, with all escapes, numbers and nestings, is a statement about all pairs of keys.", "anchors": ["src/ssh/privkey.rs: derive(Debug) of PrivateKey, PrivateKeyKind, RsaPrivateKey, EcdsaPrivateKey, EcdsaSkPrivateKey, Ed25519PrivateKey, Ed25519SkPrivateKey", "src/ssh/pubkey.rs: derive(Debug) of PublicKey", "src/fido/generate/mod.rs: derive(Debug) of FIDOSSHKey, U2FAttestation"]}
{"id": "C119", "title": "What == on keys and certificates tells", "statement": "Two certificates that were read are equal exactly when their serialised bytes and comments are; the order in which options were set has no part in it. Two public keys that were read are equal exactly when their types, encodings and comments are. Private keys are equal only when nothing differs, the check integer, PIN and device path included: a key that is written and read again is equal to what it was, but the same secret in two files may give unequal keys. Equal certificates may still give different bytes to sign.", "quantifier": "all pairs of certificates, public keys and private keys, read or built; all orders of map entries", "why_tests_cant": "Equality in both directions is a statement about all pairs of values.", "anchors": ["src/ssh/cert.rs: derive(PartialEq) of Certificate", "src/ssh/pubkey.rs: derive(PartialEq) of PublicKey", "src/ssh/privkey.rs: derive(PartialEq) of PrivateKey", "src/ssh/cert.rs: Certificate::from_string, tbs_certificate"]}
{"id": "C120", "title": "Order and repetition of options in issued certificates", "statement": "An issued certificate lists each critical option and each extension once, with its whole value and nothing after it, in the order in which the option map is iterated. Nothing sorts the names, so the lexical order that the certificate format asks for is not guaranteed, not even when the options were set in that order, and one request may give different bytes to sign. When reading, the order of distinct names makes no difference.", "quantifier": "all requests, iteration orders of maps, CA signatures and ways to take the issued bytes apart; all lists of options", "why_tests_cant": "The iteration order of a hash map changes from run to run; a test sees some of the orders.", "anchors": ["src/ssh/writer.rs: write_string_map", "src/ssh/cert.rs: tbs_certificate, add_signature, standard_extensions, read_options"]}
{"id": "C121", "title": "What decides whether a certificate is accepted, and what does not", "statement": "Given fields of the right form, the CA's signature alone decides whether a certificate is accepted, and any serial number, times, identity, principals and options have that form: an accepted certificate may end before it begins, hold critical options that nobody knows, name no principal and be signed by the key that it certifies. Its issuer is never itself of a certificate type, except of one for hardware keys.", "quantifier": "all fields, signatures and following bytes, whatever the cryptographic primitives accept", "why_tests_cant": "That nothing but the signature is looked at is a statement about all values of the fields.", "anchors": ["src/ssh/cert.rs: Certificate::from_bytes", "src/ssh/signature.rs: verify_signature", "src/ssh/keytype.rs: KeyType::from_name"]}
{"id": "C122", "title": "Changing signed data without a key", "statement": "Bytes can be added behind any valid signature, of a certificate or of a file and for keys of all types, and behind a certificate or an armored signature, and what results is still accepted with the same fields. So for each accepted certificate there is another one, as long as one likes, with the same fields and the same signature but other bytes: neither the bytes nor == identify what a CA has signed.", "quantifier": "all keys, messages, signatures, certificates, armored texts and added bytes, whatever the cryptographic primitives accept", "why_tests_cant": "The claim is about every accepted input and every addition.", "anchors": ["src/ssh/signature.rs: verify_signature, VerifiedSshSignature::from_ssh_signature, SshSignature::from_armored_string", "src/ssh/cert.rs: Certificate::from_bytes"]}
{"id": "C123", "title": "Plain and hardware keys with the same key bytes", "statement": "A signature blob is accepted for a hardware key and a message exactly if the same blob is accepted for the plain key with the same key bytes and the message made of the application's digest, the blob's flags and counter and the message's digest: the type of the key is not part of what is signed. Such a message is never the signed part of a certificate, read or requested, and it is the payload of a file signature in exactly one case: SHA-256, flags 0x36, counter 32 and an application whose SHA-256 digest is the 32 bytes with which the payload begins. Refuted: a blob is good for keys of one type only.", "quantifier": "every Ed25519 and ECDSA key, application, message, blob, certificate and file signature, whatever the primitives accept, with digests of the right sizes", "why_tests_cant": "It is a claim about all pairs of messages and all blobs, and about all behaviours of the primitives.", "anchors": ["src/ssh/signature.rs: verify_signature, SshSignature::to_signed_format", "src/ssh/cert.rs: Certificate::tbs_certificate, Certificate::from_bytes"]}
{"id": "C124", "title": "Values of 4 GiB and more: what is still guaranteed", "statement": "A string field written for a value v carries the length of v modulo 2^32: a reader gets the first (size v mod 2^32) bytes of v and continues inside v. An issued certificate parses back to exactly what was requested whenever each single field of the request (key id, nonce, encoded principals, encoded options, CA key, signature) is below 4 GiB, even if the whole certificate is not. Without that bound this is false: there is a request for the principal \"guest\" with a key id of 2^32 + 2 ASCII characters such that, whatever CA key, signature scheme and signature are used, once the signature is added the issued certificate is accepted with key id \"id\", for the principal \"root\", not for \"guest\", and with another expiry. The bytes signed for a file signature still determine namespace, hash algorithm and digest for namespaces of any size, if the digests have 32 and 64 bytes.", "quantifier": "all values and following bytes; all requests that come out of the builder, map orders, CA keys, signatures and signature primitives; all namespaces, messages and digests", "why_tests_cant": "The values concerned do not fit into a test, and the claim about bounded fields covers every request; that no signature scheme prevents the confusion is a statement about all of them", "anchors": ["src/ssh/writer.rs: Writer::write_bytes, Writer::write_string", "src/ssh/reader.rs: Reader::read_bytes", "src/ssh/cert.rs: Certificate::tbs_certificate, Certificate::add_signature, Certificate::from_bytes", "src/ssh/signature.rs: SshSignature signed format"]}
{"id": "C125", "title": "What the choice of cargo features changes for private keys", "statement": "Take two builds of the library with different features (RSA signing, encrypted keys, FIDO) and one private key text. If the builds agree on encryption support, or no passphrase is given, they give the same error or keys that agree in type, public key, comment, check value and stored secret (and are equal when both or neither have the RSA feature); only a build with the RSA feature may crash where one without it does not. With a passphrase, a build without encryption support differs only in answering 'encrypted keys not supported' on texts for which it would ask for a passphrase when none is given. A build with more features therefore reads every key that one with fewer reads, to an equal key unless it is RSA, except that it may crash on an RSA key (and this happens: adding features is not always safe). It then signs the same messages with the same outcome, except that the smaller build gives no signature for RSA keys without the RSA feature and for hardware keys without a FIDO feature. Keys read by either build are encoded, written and displayed identically.", "quantifier": "all pairs of feature sets, all texts, passphrases, messages and behaviours of the cryptographic back ends and devices", "why_tests_cant": "A test run covers one feature set and a few key files; the claim compares every pair of builds on every text.", "anchors": ["src/ssh/privkey.rs: PrivateKey::from_string_with_passphrase", "src/ssh/privkey.rs: PrivateKey::from_reader", "src/ssh/privkey.rs: read_private_key", "src/ssh/privkey.rs: SSHCertificateSigner::sign", "src/ssh/privkey.rs: PrivateKey::encode", "src/fido/signing/mod.rs", "Cargo.toml: features"]}
{"id": "C126", "title": "What reading, writing and signing leave in memory", "statement": "Take any program that makes, reads, clones, changes, writes, signs with and drops private keys. Each key keeps the value it would have as a plain value. Memory that the program gave back holds, besides zeros and replaced PINs and device paths, exactly these copies: a successful read from a text leaves the passphrase, the joined base64 lines, the decoded file and the decrypted private section, and a read from a path the text as well; a read that fails leaves the passphrase and the same copies as far as it got, the section as it stands when it cannot be decrypted, and the secret parts of a section that breaks off, up to the break, but no part of a whole key whose public key is not the one of the file; writing leaves the private section, the unencrypted file, its base64 form and the broken lines; signing with an RSA key leaves its numbers in DER form. No buffer stays in use when the last key is dropped, but none of these copies goes away, dropping every key included. From the section that a read left, the key can be read back without a passphrase; from the file that writing left, too. Reading from bytes with success, and signing with other keys, leaves nothing. Reading from bytes that break off is refused and leaves the parts of the secret that stand before the break (for RSA all numbers, and the two exponents once they can be computed).", "quantifier": "all programs of any length over these operations, all texts, passphrases, keys, feature sets and behaviours of the decryption primitives", "why_tests_cant": "Freed memory cannot be looked at by a test, and the claim is about every history of operations, including failing reads and whatever follows them.", "anchors": ["src/ssh/privkey.rs: PrivateKey::from_path_with_passphrase, PrivateKey::from_string_with_passphrase, PrivateKey::from_reader, PrivateKey::read_private_key, PrivateKey::from_bytes, PrivateKey::encode, PrivateKey::write, PrivateKey::sign, Drop for PrivateKey"]}
{"id": "C127", "title": "Exactly these errors come from reading", "statement": "Each reading function gives exactly the following errors, for whatever input, and every one of them occurs. `PublicKey::from_bytes`: UnexpectedEof, InvalidFormat, Utf8Error, UnknownKeyType(n) for any UTF-8 name n (as long as a length field can say) that is not supported, UnknownCurve(n) likewise. `PublicKey::from_string`: the same, but the unknown type is a word of the text, and also Decode and KeyTypeMismatch. `Certificate::from_bytes`: those of a key blob, NotCertificate, KeyTypeMismatch, InvalidSignature, and InvalidCertType(n) with n other than 1 and 2; `Certificate::from_string` also Decode and an unknown type that is a word of the text. `PrivateKey::from_string`: those of a key blob, Decode, EncryptedPrivateKeyNotSupported, EncryptedPrivateKey only when no passphrase is given, and UnknownKeyType naming a certificate type of a software key although that type is supported elsewhere. `SshSignature::from_armored_string`: those of a key blob, Decode and Unsupported. `AllowedSigner::from_string`: only InvalidAllowedSigner, never InvalidTimestamp inside; `AllowedSigners::from_string`: only InvalidAllowedSigners, at any line number, never with MissingPrincipals. An I/O error comes from `from_path` only, and means that the file could not be read or is not UTF-8; otherwise `from_path` is `from_string` of the contents.", "quantifier": "all byte strings and texts, all error values, all features, passphrases, time zones and behaviours of the cryptographic primitives; names below 4 GiB; below 2 GiB for the errors shown to occur in private keys and file signatures, whose blobs nest", "why_tests_cant": "A test shows that one input gives one error. That no input gives any other error, and that each error of the list can be met with each name or number, ranges over all inputs.", "anchors": ["src/error.rs: Error", "src/ssh/pubkey.rs: PublicKey::{from_bytes, from_string, from_path}", "src/ssh/cert.rs: Certificate::{from_bytes, from_string, from_path}", "src/ssh/privkey.rs: PrivateKey::{from_string, from_path, from_path_with_passphrase}", "src/ssh/signature.rs: SshSignature::from_armored_string", "src/ssh/allowed_signer.rs: AllowedSigner::from_string, AllowedSigners::{from_string, from_path}"]}
{"id": "C128", "title": "What the error of a refused signature tells", "statement": "For every public key, message and signature blob: if verification fails, the error is fixed by the first part of the blob that is wrong, in this order. UnexpectedEof or InvalidFormat if no length-prefixed label can be taken from it; Utf8Error if the label is no text; UnknownKeyType with that very label if the label is none of the sixteen supported names; KeyTypeMismatch if the label belongs to another kind of key, or to the key's kind but not to a signature algorithm that is verified (the label nistp521, the certificate types of hardware keys); UnexpectedEof or InvalidFormat if the payload, its two numbers (ECDSA), their size or the flags and counter of a hardware key are missing or malformed; InvalidSignature if and only if the blob has the right form for the key and would be accepted by primitives that accept everything, but the primitive refuses it. Every blob is accepted or has exactly one such reason. Every error other than InvalidSignature depends on the form of the blob alone: it is the same for every message, for every key of the same type and whatever the primitives say. A certificate whose signed part is in order is refused with the error of its signature over that part, or for lack of a signature field. Certificate::add_signature fails exactly with the error of the signature over the encoded request; Certificate::sign exactly with the signer's error, with SigningError if the signer gives no signature, or with the error of the signature it gave; Certificate::builder for a key of a supported type fails only if there are no random numbers, with UnexpectedEof. A KeyTypeMismatch does not mean that the signature comes from a key of another kind.", "quantifier": "All keys, messages, signature blobs, primitives, certificates, requests, iteration orders and signers.", "why_tests_cant": "A test shows the error for one broken blob. That an error cannot come from another cause, that only InvalidSignature depends on the cryptography, and that no blob falls between the cases needs all blobs.", "anchors": ["src/ssh/signature.rs: verify_signature", "src/ssh/cert.rs: Certificate::from_bytes, Certificate::add_signature, Certificate::sign, Certificate::builder", "src/error.rs"]}
{"id": "C129", "title": "What the error for a refused attestation tells", "statement": "Authenticator data is accepted or refused with exactly one error, that of the first part that is wrong: a text naming the field in which the data ends; ParsingError if the flags announce no key; `Refusing to read indefinite map` if no definite CBOR map follows, `Map is too long` above 256 entries; for the first bad entry of the map ParsingError if its label is no integer, else a text naming its label (for an unknown label the label itself, unless its value is `undefined`). A FIDO attestation is refused with Unsupported exactly for Ed25519 (-8), with InvalidFormat exactly for other unknown algorithms, with ParsingError if the root or the device certificate cannot be read, with InvalidSignature exactly if both can be read and the certificate or the signature over data and challenge is not valid, and otherwise with the error of the authenticator data, or ParsingError for an unreadable extension. So complaints about the contents are only made about contents that are properly signed. A YubiKey attestation with a readable root is refused with ParsingError if a certificate cannot be read, with InvalidSignature exactly if both can be read and one is not signed by the next, and with ParsingError if both are signed but the key is on neither curve, the serial number cannot be read, or firmware, serial number or policy is missing. A ParsingError does not tell whether the input was signed.", "quantifier": "all byte strings as authenticator data, all signatures, challenges, algorithms, certificates and roots, all behaviours of the X.509 and DER parsers and of the signature checks", "why_tests_cant": "The claims are equivalences over all byte strings and all behaviours of the parsers; the number of ways in which data can be wrong is unbounded (every entry of every map), and a test of one refusal does not show that no other input is refused with the same error.", "anchors": ["src/fido/parsing.rs AuthData::parse", "src/fido/verification.rs verify_auth_data", "src/yubikey/verification.rs verify_certificate_chain", "src/x509/mod.rs extract_ssh_pubkey_from_x509_certificate"]}
{"id": "C130", "title": "Looking up a file signature in an allowed-signers file", "statement": "Checking a file signature read from armored text with the key of an entry read from an allowed-signers line succeeds exactly if the last two words of the line spell the key of the signature and nothing more (type name and base64 blob; bytes behind the key in the blob are free), the namespace asked for is the signature's, and it is a signature of the message by that key; every other line gives an InvalidSignature error. Over a whole file, a signature is accepted for a principal exactly if some line lists the principal and spells the key. A signature made with a private key, printed and read again is accepted with the printed and read entry of its public key. In a line of printable ASCII characters nothing can follow the key, so the entry is usable; an entry whose key is followed by a comment behind a tab is read, but no signature is ever accepted with it. The namespaces, time bounds and authority mark of the entry are not part of the check.", "quantifier": "every message, namespace, line and file of UTF-8 text, every armored signature, principal, time zone, primitive functions and private key", "why_tests_cant": "The claim relates two text formats for all inputs: which lines of which files accept which signatures; a test looks at a few keys and never at white space inside a word.", "anchors": ["src/ssh/allowed_signer.rs: AllowedSigner::from_string, AllowedSigners::from_string", "src/ssh/signature.rs: SshSignature::from_armored_string, VerifiedSshSignature::from_ssh_signature, VerifiedSshSignature::new_with_private_key", "src/ssh/pubkey.rs: PublicKey::from_string"]}
{"id": "C131", "title": "Rewriting allowed-signers entries", "statement": "Printing an allowed-signers entry and reading the printed line gives the entry back exactly if each principal and namespace is a non-empty text without space, comma, double quote and #, the list of principals is not empty, the key is of a supported plain type with well-formed data and has no comment, the decimal digits of each time bound happen to denote that time as a date, and a lower bound is less than an upper one. A file with one printed line for each entry gives the list of entries back exactly if in addition no principal and no namespace contains a line break and no first principal begins with white space. In particular every entry without time bounds that was read from a line of printable ASCII characters without double quotes, with a plain key, can be printed and read again alone or in a file. Otherwise rewriting is not safe: a quoted principal can become a certificate authority, another key can take the place of the entry's key while its namespaces are lost, and a principal can lose its indentation in a file.", "quantifier": "every time zone table, every allowed-signers entry and every list of entries (whether or not it came from a line), and every printed text", "why_tests_cant": "Tests print a few entries. Whether some principal, namespace, time bound or key makes the printed line mean something else depends on every text these fields can hold, and on the neighbouring lines of the file.", "anchors": ["src/ssh/allowed_signer.rs: Display for AllowedSigner", "src/ssh/allowed_signer.rs: AllowedSigner::from_string", "src/ssh/allowed_signer.rs: AllowedSigners::from_string", "src/ssh/pubkey.rs: Display for PublicKey"]}
{"id": "C132", "title": "Altering an encrypted private key file without the passphrase", "statement": "Let a private key file be encrypted with a cipher that adds a key stream, as AES in counter mode does. If the public key in its header is replaced and any bits of its private section are inverted, reading the file with the passphrase gives exactly the keys that the plain section with the same bits inverted and the new header hold. So whoever knows the plain text can put any key of the same length in its place, and somebody who knows nothing can invert any bits of an Ed25519 or ECDSA secret, or any flags of a hardware key, and the file is still read as the same key with that other secret or those other flags. If only the section is altered, a key that is still read has the public key of the original, and the alteration left the type name and the public key alone and changed both check integers alike; an alteration that treats the check integers differently is refused with InvalidFormat. Giving a passphrase does not show that the file was encrypted: for every storable key there is one text that is read as that key with every passphrase.", "quantifier": "every key, passphrase, salt, number of rounds, key stream, section, padding, header and every set of inverted bits", "why_tests_cant": "A test alters a file in a few places. Which alterations of which files are noticed is a statement about all key streams, all sections and all sets of changed bits, and about what an attacker can reach without knowing the plain text.", "anchors": ["src/ssh/privkey.rs: PrivateKey::from_reader", "src/ssh/privkey.rs: read_private_key", "src/ssh/privkey.rs: PrivateKey::from_string_with_passphrase"]}
{"id": "C133", "title": "Certificates printed one per line", "statement": "If certificates that were read are printed, each followed by a line break, then reading the text line by line gives these certificates back, each with the first word of its key id as comment, exactly if no key id contains a line break. In that case ssh-cert-info shows the listings of exactly these certificates and ssh-pubkey-from-cert exactly their keys, in order. Whatever a key id has between two line breaks (and that does not end in a carriage return) is a line of the printed certificate, so a key id can bring along a line that is read as a key that the certificate does not certify, and ssh-cert-info can show a certificate that only stands in the key id of another.", "quantifier": "every verifier, every list of accepted certificates, every key id and every iteration order of the option maps", "why_tests_cant": "Tests print certificates with ordinary key ids. That a file of printed certificates means these certificates and nothing else depends on every key id an issuer can sign, on the number of certificates and on the neighbouring lines.", "anchors": ["src/ssh/cert.rs: Display for Certificate", "src/ssh/cert.rs: Certificate::from_string", "examples/ssh-cert-info.rs: main", "examples/ssh-pubkey-from-cert.rs: main"]}
{"id": "C134", "title": "Line ends of the files that are read", "statement": "Turning every line break LF of a text into CR LF changes nothing for reading it: private keys, file signatures and allowed-signers files give the same value or the same error if no line break was CR LF before, public keys and certificates in every case. A line break added at the end changes nothing either, unless the text is empty or ends in LF or CR. ssh-cert-info and ssh-pubkey-from-cert print the same if no line is empty. At an empty line of a CR LF file they do not stop but report a bad certificate and read on, and a file signature converted twice is refused.", "quantifier": "every text, passphrase, feature set, time zone, crypto backend and iteration order", "why_tests_cant": "A test converts a few sample files. That no text, however malformed, is read differently after conversion is a statement about every input and every error.", "anchors": ["src/ssh/privkey.rs PrivateKey::from_string_with_passphrase", "src/ssh/signature.rs SshSignature::from_armored_string", "src/ssh/allowed_signer.rs AllowedSigners::from_string", "src/ssh/pubkey.rs PublicKey::from_string", "src/ssh/cert.rs Certificate::from_string", "examples/ssh-cert-info.rs main", "examples/ssh-pubkey-from-cert.rs main"]}
{"id": "C135", "title": "Writing again what was read", "statement": "Only the first rewriting changes a text. A public key that was read is printed, and the printed text is read as the same key with the same comment; only if the key has a certificate's type name is the text refused because label and data differ. A certificate that was read prints a text that is read as the same certificate but for the comment, and that prints the same text. A private key that was read, encrypted or not, is written unencrypted; with or without any passphrase the text gives the key back, and from then on the same text is written. Only the reserved field of a hardware key is lost. The first text itself need not be kept, and the encryption never is.", "quantifier": "every text, passphrase, feature set, crypto backend and key function; for private keys those whose private section with padding has a 32-bit length", "why_tests_cant": "A test rewrites a few well-formed files. Accepted texts include keys with bytes after the data, several words, missing base64 padding, foreign labels and reserved data, and each must become stable.", "anchors": ["src/ssh/pubkey.rs PublicKey::from_string, Display", "src/ssh/cert.rs Certificate::from_string, Display", "src/ssh/privkey.rs PrivateKey::from_string_with_passphrase, write"]}
{"id": "C136", "title": "What is asked of the crypto backend", "statement": "Verification depends on the crypto backend through at most one yes-or-no question. Checking a signature either fails with one and the same error for every backend and message, or asks one question and gives the signature if the answer is yes and InvalidSignature if not. The question is about exactly the numbers of the given key and exactly the given message, with a hardware key about the hash of its application, a flags byte, a counter and the hash of the message. Reading a certificate asks about the issuer's key and all bytes before the signature; the certificate returned does not depend on the backend. A file signature asks about the key it names and its signed form. Two backends that answer these questions alike give the same results everywhere.", "quantifier": "every signature, key, message, certificate data and text, namespace and crypto backend", "why_tests_cant": "Tests run one backend on a few vectors. That no other question is asked, and that no part of the result depends on the backend otherwise, ranges over all backends at once.", "anchors": ["src/ssh/signature.rs verify_signature, VerifiedSshSignature::from_ssh_signature", "src/ssh/cert.rs Certificate::from_bytes, from_string"]}
{"id": "C137", "title": "What a passphrase is used for", "statement": "Private key texts are of three kinds. For the first, the result of reading depends neither on the passphrase nor on any key function; so an unencrypted key is read with any passphrase. For the second, it depends only on whether there is a passphrase: without one the error is EncryptedPrivateKey, with one it is one fixed error. The third are files with aes256-ctr and bcrypt and readable options, if the feature for encrypted keys is on: without a passphrase the error is EncryptedPrivateKey; with one, the passphrase goes unchanged to bcrypt with the salt and rounds of the file, the first 32 bytes of output are the AES key and the rest the IV for exactly the private section, and the decrypted section and the file alone decide the rest, InvalidFormat being the error of either function. A key that is returned has the public key of the file. Passphrases with the same bcrypt outputs are interchangeable. The rounds are not bounded: a file of less than 600 bytes can ask for 2^32-1.", "quantifier": "every text, passphrase, feature set and key function", "why_tests_cant": "A test opens a file with a right and a wrong passphrase. That the passphrase has no other influence must hold for all texts and all passphrases, whatever bcrypt and AES compute.", "anchors": ["src/ssh/privkey.rs PrivateKey::from_string_with_passphrase, from_reader"]}
{"id": "C138", "title": "What the time zone of the machine changes in an allowed-signers file", "statement": "The time zone matters only for the bounds written without Z: two machines whose zones agree on the local times written in a text read the same entry or file from it, or report the same error. In any other zone an accepted entry has the same principals, key, namespaces and CA mark, each bound that ended in Z is the same, and a bound that did not is that local time there; otherwise the entry is refused with InvalidTimestamps, which needs both bounds, or reading panics, which needs a local time that does not exist exactly once there. The same holds for files, entry by entry. Between zones with fixed offsets a bound stays or moves by exactly the difference. An entry that mixes both ways of writing can be accepted on one machine and refused on another.", "quantifier": "every text and every two time zones, given as arbitrary maps from local times to offsets", "why_tests_cant": "A test runs in the time zone of one machine; the claim compares the readings of every text in all pairs of zones, including clock changes.", "anchors": ["src/ssh/allowed_signer.rs AllowedSigner::from_string, AllowedSigners::from_string, parse_timestamp"]}
{"id": "C139", "title": "What == and the printed line of allowed-signers entries tell", "statement": "== on allowed-signers entries holds exactly when the principals in their order, the CA mark, the namespaces, both bounds and the key with its comment are the same; spelling, order of options, white space and comments of the line have no part in it. Two entries that were read, in any time zones, and have no space in a principal or namespace are equal exactly when they are printed as the same line; entries of lines without double quotes are of this kind. Files without double quotes are equal exactly when their entries are printed the same. With a quoted space two entries that grant different things can be printed as the same line, and entries that list the same principals in another order are not equal.", "quantifier": "all pairs of entries and of files, every text they are read from, all time zones", "why_tests_cant": "That equal lines mean equal entries is a claim about all pairs of entries; tests compare single entries with an expected value.", "anchors": ["src/ssh/allowed_signer.rs: derive(PartialEq) of AllowedSigner and AllowedSigners", "src/ssh/allowed_signer.rs: Display for AllowedSigner", "src/ssh/allowed_signer.rs: AllowedSigner::from_string, AllowedSigners::from_string"]}
{"id": "C140", "title": "What Debug shows of certificates, allowed-signers entries and signatures", "statement": "The {:?} text of an allowed-signers entry, of an allowed-signers file, of a signature of a message and of a verified signature is one text that the values of all fields give, with every field under its name, texts quoted and escaped, bytes as decimal numbers, and nothing left out. Two entries or files have the same {:?} text exactly when they are ==, in contrast to the printed lines of C139, and two signatures with the same {:?} text are the same in key, namespace, hash, signature bytes and message. The {:?} text of a certificate shows all its fields, with the critical options and the extensions each in an order of their own; each such text can be written. Two certificates are == exactly when some text is written for both, and then they have all texts in common. One certificate can be written as two texts, so comparing {:?} texts is not comparing certificates.", "quantifier": "all certificates, entries, files and signatures, all iteration orders of the two maps, every table of printable characters", "why_tests_cant": "That no two values share a text and that no order of a map leads to another text needs all pairs of values and all orders; a test formats single values in the order of one run.", "anchors": ["src/ssh/cert.rs: derive(Debug) of Certificate and CertType", "src/ssh/allowed_signer.rs: derive(Debug) of AllowedSigner and AllowedSigners", "src/ssh/signature.rs: derive(Debug) of HashAlgorithm, SshSignature and VerifiedSshSignature"]}
{"id": "C141", "title": "Whatever is accepted under a key goes back to something the key was asked to sign", "statement": "Take everything a private key ever signed: certificates it issued, files it signed, and bytes given to it directly. Every certificate that the library accepts under that key (from binary data or text) was issued by one of those uses with the very same fields (type, nonce, subject key, serial, role, key id, principals, validity, options, extensions, CA key), or its signed part was given to the key as plain bytes, or its signature is a forgery, that is, accepted although no use signed those bytes. Every file signature accepted under the key goes back to signing a file with the same digest, hash and namespace, or to those payload bytes given directly, or is a forgery. So a key that signed only files has no certificates and a key that only issues certificates has no file signatures, short of forgery. The requests may come from the builder or from certificates that were read, changed and signed any number of times. Nor do signatures that the key gave in other protocols count: a login request (whose session identifier is not the name of a certificate type) or a DER structure (X.509 certificate or signing request) is never the signed part of a certificate or the payload of a file. Issuing and file signing ask the key for nothing but that one signature. It is not true that an accepted certificate equals an issued one byte for byte: bytes may follow the signature.", "quantifier": "all histories of uses of any length, all requests however built, all certificates, file signatures, messages, namespaces, keys, orders of the option maps, and cryptographic functions", "why_tests_cant": "It speaks about every certificate and signature that could ever be presented against every possible history of a key; tests present a few.", "anchors": ["src/ssh/cert.rs: Certificate::from_bytes, Certificate::from_string, Certificate::sign, Certificate::add_signature, tbs_certificate", "src/ssh/signature.rs: VerifiedSshSignature::from_ssh_signature, VerifiedSshSignature::new_with_private_key"]}
{"id": "C142", "title": "Signatures of a hardware key go back to what the token signed for this application", "statement": "Take all assertions a token ever made with the credential of a hardware key, for ssh, for web sites, with or without extension data. Every signature, certificate and file signature that the library accepts under the key goes back to one of them, made for exactly the application of the key and exactly this message (signed part, payload), with the flags and counter that the signature carries and without extension data, or the signature primitive was forged, that is, it accepted under the key bytes something the token never signed. So what the token signed for other applications or with extensions is never accepted; if the token signs for this application only when touched, every accepted signature carries the touch flag; if the token never repeats a counter, no two messages of different digests are accepted with the same counter. The library itself does not look at the flags: a signature without the touch flag is accepted.", "quantifier": "all histories of assertions of any length, all hardware keys, applications, messages, signatures, certificates and files, and cryptographic functions with digests of the right size", "why_tests_cant": "It speaks about every signature that could be presented against every history of a token; tests have a few recorded signatures and no history.", "anchors": ["src/ssh/signature.rs: verify_signature, VerifiedSshSignature::from_ssh_signature", "src/ssh/cert.rs: Certificate::from_bytes"]}
{"id": "C143", "title": "YubiKeys that other programs use at the same time", "statement": "Whatever other programs do with YubiKeys between any two operations of this one: what happens to the devices is a merge of their operations and of operations the calls made here may do. A slot that neither side is to change stays as it is. While the others leave a slot alone, reading calls tell about its certificate, its certificate keeps matching its key (unless a certificate is written or a provisioning fails), and signatures made with it verify under the key reported for it. Even if they change it, issuing a certificate gives one that is valid under the key named in it, or an error. If two programs provision one slot at the same time, provisioning can report a key that the slot does not hold.", "quantifier": "every device behaviour, every list of calls, every behaviour of other programs and every interleaving of operations", "why_tests_cant": "The number of interleavings is unbounded, and a race shows only in some of them.", "anchors": ["src/yubikey/piv/management.rs: Yubikey::provision, sign_data, configured, fetch_certificate", "src/yubikey/piv/ssh.rs: Yubikey::ssh_cert_signer, ssh_cert_fetch_pubkey", "src/ssh/cert.rs: Certificate::sign"]}
{"id": "C144", "title": "Whatever is accepted under a key in a YubiKey goes back to a call that was given it to sign", "statement": "Take a slot that has signed nothing yet, and all calls that any programs have made to the device since, interleaved in any way. Every digest the slot signed is one of a message a call was to sign with that slot, or of a certificate the device made for itself. So for a certificate that is accepted, its signed part was given to ssh_cert_signer or sign_data for this slot; or it shares a digest with something else that was signed; or its signature is accepted although the slot signed no digest of it. The same holds for accepted file signatures and their payloads. Signing requests and self-signed certificates are never among them. If the slot was only given what stands for certificates to be issued and files to be signed, the accepted certificate was asked for field by field.", "quantifier": "every device behaviour, every set of calls and every order of operations, every certificate and file signature", "why_tests_cant": "It is about all byte strings that could be accepted and all histories of a device.", "anchors": ["src/yubikey/piv/ssh.rs: Yubikey::ssh_cert_signer", "src/yubikey/piv/management.rs: Yubikey::sign_data, generate_csr, provision", "src/ssh/cert.rs: Certificate::from_bytes", "src/ssh/signature.rs: VerifiedSshSignature::from_ssh_signature"]}
{"id": "C145", "title": "What follows in a file behind what is read", "statement": "PrivateKey::from_string and SshSignature::from_armored_string look at no line behind the one that ends the key or signature: whatever stands there, the result is the same, for texts that are accepted as well as for texts that are refused. So of several keys or signatures in a file the first is read, and a private key written over a longer file is read as written. PublicKey::from_string and Certificate::from_string of a text that goes on after a line break give the same key or certificate; its comment is its own or, if it has none, the first word of what follows. AllowedSigners::from_string of two files put together with a line break gives the entries of both in order exactly if both are accepted; errors of the first stay, and those of the second have their line numbers counted on. Refuted: a key without comment is read without comment from a file with several keys (it gets the type name of the next key).", "quantifier": "all texts, all texts behind them, all passphrases, features, crypto and time zones", "why_tests_cant": "A test puts a few texts together; the claim is about every accepted text and everything that may follow it.", "anchors": ["src/ssh/privkey.rs: PrivateKey::from_string, PrivateKey::write", "src/ssh/signature.rs: SshSignature::from_armored_string", "src/ssh/pubkey.rs: PublicKey::from_string", "src/ssh/cert.rs: Certificate::from_string", "src/ssh/allowed_signer.rs: AllowedSigners::from_string"]}
{"id": "C146", "title": "The layout of texts that are read", "statement": "PublicKey::from_string and Certificate::from_string depend only on the first three words of a text, not on the white space (of any kind, line breaks included) around them. PrivateKey::from_string and SshSignature::from_armored_string depend only on the base64 text between the first and the last line put together: lines of any length and empty lines give the same result, a value or an error. But any other character inside of it, a blank included, gives a Decode error, and a first or last line that is not there exactly (indented, with a blank behind it, or with an empty line in front) gives InvalidFormat. Blank lines, comments and white space around entries change nothing about what AllowedSigners::from_string returns but the line number in an error. Refuted: the base64 text of a public key can be wrapped; a private key can be indented.", "quantifier": "all texts and all ways to lay them out, all passphrases, features, crypto and time zones", "why_tests_cant": "There is no end of layouts of a text; tests try a few.", "anchors": ["src/ssh/privkey.rs: PrivateKey::from_string", "src/ssh/signature.rs: SshSignature::from_armored_string", "src/ssh/pubkey.rs: PublicKey::from_string", "src/ssh/cert.rs: Certificate::from_string", "src/ssh/allowed_signer.rs: AllowedSigners::from_string"]}
{"id": "C147", "title": "Private keys whose secret does not belong to the public key", "statement": "Reading a private key does not check that the secret belongs to the public key: for any two keys of one form (kind, and curve for ECDSA) there is a file that PrivateKey::from_string reads, with any passphrase or none, as the first key with the secret of the second, RSA primes and hardware handles included. But if the signatures such a key makes are not accepted under its public key, neither Certificate::sign nor VerifiedSshSignature::new_with_private_key ever returns anything made with it. Refuted: the public key in an accepted file determines the secret.", "quantifier": "all pairs of keys that fit a file, all features, passphrases, crypto backends, certificates, messages and namespaces", "why_tests_cant": "It is about all pairs of keys and everything that could be issued with them.", "anchors": ["src/ssh/privkey.rs: PrivateKey::from_string, read_private_key", "src/ssh/cert.rs: Certificate::sign", "src/ssh/signature.rs: VerifiedSshSignature::new_with_private_key"]}
{"id": "C148", "title": "The lines in which keys and certificates are printed", "statement": "A public key is printed by Display as its type name, one space, the padded base64 text of its wire encoding and, if it has a comment, one space and the comment; PublicKey::write writes the same with one line break behind it. A certificate is printed as its type name, the base64 text of exactly the bytes it was read from (or of the request followed by the signature, for one that was just issued) and its key identifier, whatever comment was read with it. Everything can be told from a printed line: keys printed alike have the same type, material and comment, and certificates printed alike are the same certificate read from the same bytes.", "quantifier": "all keys of supported types that can be encoded, all accepted certificates, all comments, all requests, signatures and crypto backends", "why_tests_cant": "The exact text and the fact that no two keys share one range over all keys, comments and certificates.", "anchors": ["src/ssh/pubkey.rs: Display for PublicKey, PublicKey::write", "src/ssh/cert.rs: Display for Certificate, add_signature"]}
{"id": "C149", "title": "Certificates issued for attested keys", "statement": "If a PIV attestation chain is accepted and a certificate is issued for the key it reports, the certificate that parses back is for exactly the point in the attested client certificate, and every signature that verifies under its key was made with that point's key. If a FIDO attestation is accepted and a certificate is issued for the key derived from it and an application, every signature that verifies was made with the attested key over the digest of that application, flags, counter and message digest. The application is not compared with the attested one (refuted), but if the token signs only for the application it was registered for, a certificate with another application verifies nothing.", "quantifier": "all attestations and roots, X.509 and crypto backends, applications, requests, CA keys, map orders, messages and signatures", "why_tests_cant": "It composes attestation, issuing, parsing and verification for all inputs and all signatures.", "anchors": ["src/yubikey/verification.rs: verify_certificate_chain", "src/fido/verification.rs: verify_auth_data", "src/fido/parsing.rs: AuthData::ssh_public_key", "src/ssh/cert.rs: Certificate::add_signature, from_bytes", "src/ssh/signature.rs: verify_signature"]}
{"id": "C150", "title": "The armored texts that are written", "statement": "The text of an SSH signature is exactly: the BEGIN SSH SIGNATURE line, the padded base64 text of the signature blob (with an empty reserved field) in lines of 76 characters of which only the last may be shorter, the END line, lines separated by single line feeds and no line break at the end. The file of a private key is exactly: the BEGIN OPENSSH PRIVATE KEY line, the padded base64 text of the encoded key in lines of 70 characters, the END line, every line including the last ended by one line feed. The encoded key is an unencrypted openssh-key-v1 file without options whose section is padded by the bytes 1, 2, 3, ... to a multiple of eight and no further. Nothing else is ever written.", "quantifier": "all signatures over keys that can be encoded, all private keys, all texts", "why_tests_cant": "The text is fixed byte for byte for data of every length, including lengths that fill lines exactly.", "anchors": ["src/ssh/signature.rs: Display for SshSignature", "src/ssh/privkey.rs: PrivateKey::write, encode"]}
{"id": "C151", "title": "Public keys written one behind the other", "statement": "If several public keys are written with PublicKey::write into one file, the lines of that file are read back by PublicKey::from_string as those keys, one line per key and in order, each with the first word of its comment, exactly if no comment contains a line break. Keys that were themselves read from texts come back unchanged, whatever the texts were. Whatever stands between two line breaks of a comment becomes a line of the file, wherever in the file the key is written; such a line can hold a different key, because write neither refuses nor escapes line breaks in a comment.", "quantifier": "all lists of keys whose type name is the plain one and that can be encoded, all comments that are text, all files before and behind the written key", "why_tests_cant": "The claim is about files with any number of keys and about every comment, including carriage returns and line breaks at any place; tests only write single keys with short comments.", "anchors": ["src/ssh/pubkey.rs: PublicKey::write, PublicKey::from_string, Display for PublicKey"]}

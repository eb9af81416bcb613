# Running the model on the project's test vectors

`sh run.sh` evaluates the model, inside Coq, on the test vectors of `/repo/tests` and compares
with what the Rust tests assert. This is a test of the model, not a proof: it helps to see that
the definitions in `rocq/theories` are those of the code. Nothing here is part of the build.

- `vectors.py`: certificates, public and private keys, file signatures, allowed signers (in two
  time zones), reader and writer.
- `devices.py`: FIDO and PIV attestations, encrypted private keys, making file signatures.
- `issue.py`: certificates that the model issues, for six types of keys and four of CAs.
- `sigcheck.py`: Ed25519, ECDSA and RSA verification in Python, so that the model can be given
  tables of valid signatures that do not come from the code under test.
- `check.py`: compares, and lets `ssh-keygen -Y check-novalidate` check the signatures that the
  model made with each of the unencrypted test keys, and `ssh-keygen -L` (which verifies them) read
  the certificates.

Last result: 155 + 23 tests agree, 9 of 9 signatures and 24 of 24 certificates are accepted
by `ssh-keygen`.

(** /repo/examples/new-fido-sshkey.rs. Definitions only. Arguments come parsed. *)
From Verif Require Import Base Str KeyType PubKeyType PubKey Crypto PrivKey Fido X509 Generate Files Tools.

(** What is at the path given: nothing was given; the file cannot be created; it is created,
    emptied, and takes that many bytes. *)
Inductive target := NoOut | Uncreatable | Takes (room : nat).
(** Standard output, the contents of the file if it was created, and whether [main] returned. *)
Record outcome := mkOutcome { oc_stdout : bytes; oc_file : option bytes; oc_returned : bool }.

(** 54-74; [made] is what [generate_new_ssh_key] returns, [why] is the text of an error.
    [{:#}] of a public key is the plain form (pubkey.rs 77-91). A failing [fmt] panics in
    [println!]. *)
Definition new_fido_sshkey (why : error -> bytes) (made : res fido_key) (out : target) : outcome :=
  match made with
  | Panic => mkOutcome [] None false
  | Err e => mkOutcome (println (s2b "Failed to generate new SSH Key: " ++ why e)) None true
  | Ok key =>
      match pk_display (sk_pub (fk_private key)) with
      | Ok line =>
          match out with
          | Uncreatable => mkOutcome (println line) None false
          | Takes room =>
              let '(r, contents) := sk_write_to room (fk_private key) in
              mkOutcome (println line) (Some contents) (match r with Ok _ => true | _ => false end)
          | NoOut =>
              match sk_write (fk_private key) with
              | Ok text => mkOutcome (println line ++ println (s2b "Your new private key handle:" ++ [newline] ++ text)) None true
              | _ => mkOutcome (println line) None false
              end
          end
      | _ => mkOutcome [] None false
      end
  end.
(** 54 with feature fido-support: application and comment are fixed; [challenge] is random. *)
Definition new_fido_sshkey_hid (why : error -> bytes) (G : hid_ops) (X : x509) (C : crypto) (default : bytes)
    (pin device : option bytes) (challenge : bytes) (out : target) : outcome :=
  new_fido_sshkey why
    (hid_generate G X C default (s2b "ssh:test_sk_key") (s2b "new-fido-sshkey") pin device challenge) out.

(** The key type names that the library supports. *)
From Verif Require Import Base.

Definition supported_names : list bytes := map s2b
  [ "ssh-rsa"; "rsa-sha2-256"; "rsa-sha2-512"; "ssh-rsa-cert-v01@openssh.com";
    "ecdsa-sha2-nistp256"; "ecdsa-sha2-nistp384"; "ecdsa-sha2-nistp521";
    "ecdsa-sha2-nistp256-cert-v01@openssh.com"; "ecdsa-sha2-nistp384-cert-v01@openssh.com";
    "ecdsa-sha2-nistp521-cert-v01@openssh.com"; "ssh-ed25519";
    "ssh-ed25519-cert-v01@openssh.com"; "sk-ssh-ed25519@openssh.com";
    "sk-ssh-ed25519-cert-v01@openssh.com"; "sk-ecdsa-sha2-nistp256@openssh.com";
    "sk-ecdsa-sha2-nistp256-cert-v01@openssh.com" ]%string.

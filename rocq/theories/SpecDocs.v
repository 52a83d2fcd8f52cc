(** The token the documentation's function makes (C124). *)
From Verif Require Import Prelude Value Ext Key Spec SpecWire.

(** Header and payload as they are signed, [now] being the time of the call. *)
Definition minimal_claims (k : key) (aud did : bytes) (now : N) (text : bytes) : Prop :=
  exists alg' aud' did' exp,
    string_text (key_alg k) alg' /\ string_text aud aud' /\ string_text did did' /\
    decimal_text ((now + 60) mod 18446744073709551616) exp /\
    text = base64url (B "{""alg"":" ++ alg' ++ B ",""typ"":""JWT""}") ++ B "." ++
           base64url (B "{""aud"":" ++ aud' ++ B ",""cap"":{},""exp"":" ++ exp ++ B ",""iss"":" ++ did' ++ B ",""ucv"":""0.10.0-canary""}").

Definition minimal_token (k : key) (aud : bytes) (now : N) (token : bytes) : Prop :=
  exists did text sig, key_did k = Ok did /\ minimal_claims k aud did now text /\ key_sign k text = Ok sig /\
    token = text ++ B "." ++ base64url sig.

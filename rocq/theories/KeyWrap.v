(** ucan/src/crypto/key.rs: the implementations of [KeyMaterial] for boxed and shared keys. *)
From Verif Require Import Prelude Key.

(** [impl KeyMaterial for Box<dyn KeyMaterial>], key.rs:38-56: every method is that of the boxed key. *)
Definition box_key (k : key) : key := {|
  key_alg := key_alg k;
  key_did := key_did k;
  key_sign payload := key_sign k payload;
  key_verify payload signature := key_verify k payload signature
|}.

(** [impl KeyMaterial for Arc<K>], key.rs:58-79: every method is that of the shared key. *)
Definition arc_key (k : key) : key := {|
  key_alg := key_alg k;
  key_did := key_did k;
  key_sign payload := key_sign k payload;
  key_verify payload signature := key_verify k payload signature
|}.

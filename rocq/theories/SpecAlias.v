(** Several DIDs of one key (C131). *)
From Verif Require Import Prelude Key KeySupport.

(** The decoder reads nothing but the key's own encoding. *)
Definition own_encoding_only {Pub Priv} (C : crypto Pub Priv) : Prop :=
  forall b pk, cr_decode C b = Some pk -> cr_encode C pk = Some b.

(** SEC 1, 2.3.3-2.3.4: keys are written in the compressed form (the parity of y, and x);
    the uncompressed form (04, x and y) is read as well. *)
Definition sec1_codec {Pub Priv} (C : crypto Pub Priv) : Prop := forall pk b, cr_encode C pk = Some b ->
  exists x y, length x = 32%nat /\ length y = 32%nat /\
    b = (if N.odd (bN (last y x00)) then x03 else x02) :: x /\ cr_decode C (x04 :: x ++ y) = Some pk.

(** A parser for the three key types. *)
Definition three_types {PubE PrivE PubP PrivP PubR PrivR} (CE : crypto PubE PrivE) (CP : crypto PubP PrivP)
    (CR : crypto PubR PrivR) (sha256 : bytes -> bytes) : list (bytes * ctor) :=
  [([xed; x01], bytes_to_ed25519_key CE); ([x80; x24], bytes_to_p256_key CP); ([x85; x24], bytes_to_rsa_key CR sha256)].

(** The key under another name. *)
Definition under (did : bytes) (k : key) : key := mkKey (key_alg k) (Ok did) (key_sign k) (key_verify k).

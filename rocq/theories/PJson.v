(** C71: DAG-JSON. *)
From Coq Require Import Floats.SpecFloat.
From Verif Require Import Prelude Ord SMap Base58 Utf8 Value Ext Json Spec JsonFacts Samples SampleFacts.

(* ------------------------------------------------------------------- C71 *)

Theorem C71_roundtrip : forall X v, carried X 127 v ->
  exists i, dagjson_decode X (dagjson_encode X (ipld_of_value v)) = Some i /\ value_of_ipld X i = Some v.
Proof. exact value_dagjson_roundtrip. Qed.
Print Assumptions C71_roundtrip.

(** Whatever follows (unless it continues a number), if the codec does not insist on the end of input. *)
Theorem C71_roundtrip_trailing : forall X v rest, carried X 127 v -> x_dagjson_end X = false ->
  (forall c r, rest = c :: r -> ~ (48 <= bN c <= 57)%N /\ c <> x2e /\ c <> x65 /\ c <> x45) ->
  exists i, dagjson_decode X (dagjson_encode X (ipld_of_value v) ++ rest) = Some i /\ value_of_ipld X i = Some v.
Proof. exact value_dagjson_trailing. Qed.
Print Assumptions C71_roundtrip_trailing.

Theorem C71_injective : forall X v w, carried X 127 v -> carried X 127 w ->
  dagjson_encode X (ipld_of_value v) = dagjson_encode X (ipld_of_value w) -> v = w.
Proof. exact value_dagjson_injective. Qed.
Print Assumptions C71_injective.

Definition json_sample : value :=
  VObj [(B "", VArr [VNull; VBool true; VNum (PosInt 18446744073709551615); VNum (NegInt (-9223372036854775808))]);
        (B "/", VStr (B "x")); (B "a""\/", VArr [VNum (Float (S754_zero false)); VArr []; VObj [(B "/", VNum (PosInt 1))]])].

Example C71_example : carried sample_ext 127 json_sample /\
  dagjson_encode sample_ext (ipld_of_value json_sample) =
  B "{"""":[null,true,18446744073709551615,-9223372036854775808],""/"":""x"",""a\""\\/"":[0.0,[],{""/"":1}]}".
Proof. split; [unfold json_sample; concrete | vm_compute; reflexivity]. Qed.

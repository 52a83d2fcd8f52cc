From Coq Require Import Floats.SpecFloat.
From Verif Require Import Prelude BaseN Base58 Value Ext Json Key Ucan Double Spec SpecWire SpecDouble DoubleFacts DoubleTextFacts Samples SampleFacts.
Local Open Scope Z_scope.

(* ------------------------------------------------------------------ C134 *)

(** Reading is correct rounding of the number the text says. *)
Theorem C134_reading : forall t f, double_parse t = Some f <->
  exists neg m k, number_value t neg m k /\ nearest (ten_num (if neg then - m else m) k) (ten_den k) f /\ negative f = neg.
Proof. exact double_parse_iff. Qed.
Print Assumptions C134_reading.

(** A number text says one number; it is refused only where no double is in range. *)
Theorem C134_one_number : forall t neg m k neg' m' k', number_value t neg m k -> number_value t neg' m' k' -> neg = neg' /\ m = m' /\ k = k'.
Proof. exact number_value_fun. Qed.
Print Assumptions C134_one_number.

Theorem C134_refused : forall t, double_parse t = None <->
  (forall neg m k, number_value t neg m k -> ten_den k * ((2 ^ 54 - 1) * 2 ^ 970) <= ten_num m k).
Proof. exact double_refused. Qed.
Print Assumptions C134_refused.

Definition tenth : f64 := S754_finite false 7205759403792794 (-56).
Definition largest : f64 := S754_finite false 9007199254740991 971.
Definition smallest : f64 := S754_finite true 1 (-1074).

Example C134_example :
  double_parse (B "0.1") = Some tenth /\ double_parse (B "1000000000000000055e-19") = Some tenth /\
  double_parse (B "9007199254740993.0") = Some (S754_finite false 4503599627370496 1) /\
  double_parse (B "17976931348623157e292") = Some largest /\ double_parse (B "1e309") = None /\
  double_parse (B "-4E-324") = Some smallest /\ double_parse (B "-1e-400") = Some (S754_zero true).
Proof. vm_compute. repeat split. Qed.

(* ------------------------------------------------------------------ C135 *)

(** The printed text is a number with a fraction or an exponent that reads as the double. *)
Theorem C135_reads_back : forall f, finite_float f -> double_parse (double_print f) = Some f.
Proof. exact print_reads. Qed.
Print Assumptions C135_reads_back.

Theorem C135_float_text : forall f, finite_float f -> float_text (double_print f).
Proof. exact print_text. Qed.
Print Assumptions C135_float_text.

(** No text with fewer digits reads as the double. *)
Theorem C135_shortest : forall t f c, double_parse t = Some f -> digits_suffice t c -> digits_suffice (double_print f) c.
Proof. exact print_shortest. Qed.
Print Assumptions C135_shortest.

(** Of those with as many digits none is closer, and of two as close the even one is printed. *)
Theorem C135_closest : forall t f c neg m k neg' m' k',
  double_parse t = Some f -> digits_suffice t c -> ~ digits_suffice (double_print f) (c - 1) ->
  number_value t neg m k -> number_value (double_print f) neg' m' k' ->
  neg = neg' /\ distance (if neg then - m' else m') k' f k <= distance (if neg then - m else m) k f k' /\
  (distance (if neg then - m' else m') k' f k = distance (if neg then - m else m) k f k' ->
   same_number m' k' m k \/ exists a b j, same_number m' k' a j /\ same_number m k b j /\ Z.even a = true /\ (b = a + 1 \/ b = a - 1)).
Proof. exact print_closest. Qed.
Print Assumptions C135_closest.

(** How the digits are laid out. *)
Theorem C135_layout : forall neg p e, finite_float (S754_finite neg p e) ->
  exists ds P t, tight ds /\ shown ds P t /\ double_print (S754_finite neg p e) = (if neg then B "-" else []) ++ t.
Proof. exact print_shape. Qed.
Print Assumptions C135_layout.

Theorem C135_layout_unique : forall ds P t t', ds <> [] -> shown ds P t -> shown ds P t' -> t = t'.
Proof. exact shown_fun. Qed.
Print Assumptions C135_layout_unique.

Theorem C135_one_layout : forall ds ds' P P' t, tight ds -> tight ds' -> shown ds P t -> shown ds' P' t -> ds = ds' /\ P = P'.
Proof. exact shown_inj. Qed.
Print Assumptions C135_one_layout.

Example C135_example :
  double_print tenth = B "0.1" /\ double_print smallest = B "-5e-324" /\
  double_print (S754_zero true) = B "-0.0" /\ double_print (S754_finite false 6755399441055744 (-52)) = B "1.5" /\ double_print (S754_finite false 5000000000000000 1) = B "1e16" /\
  finite_float tenth /\ finite_float smallest.
Proof. vm_compute. repeat split. Qed.

(* ------------------------------------------------------------------ C136 *)

(** With these texts every double a caveat or fact can hold is carried, and tokens keep theirs. *)
Theorem C136_carried : forall X n f, x_f64_print X = double_print -> x_f64_parse X = double_parse -> finite_float f -> carried X n (VNum (Float f)).
Proof. exact double_value_carried. Qed.
Print Assumptions C136_carried.

Theorem C136_floats_survive : forall X, x_f64_print X = double_print -> x_f64_parse X = double_parse -> floats_survive X.
Proof. exact doubles_survive. Qed.
Print Assumptions C136_floats_survive.

Theorem C136_reencode : forall X t u, x_f64_print X = double_print -> x_f64_parse X = double_parse ->
  parse_token X t = Ok u -> payload_unreserved (u_payload u) ->
  exists u', parse_token X (encode X u) = Ok u' /\ content u' = content u /\ encode X u' = encode X u.
Proof. exact doubles_reencode. Qed.
Print Assumptions C136_reencode.

Definition double_ext : ext :=
  mkExt double_print double_parse true true (fun _ _ => None) (fun _ _ => None) (fun _ => toy_hash) true.
Definition tenth_header : bytes := B "{""alg"":""EdDSA"",""typ"":""JWT""}".
Definition tenth_payload (number : bytes) : bytes :=
  B "{""ucv"":""0.10.0-canary"",""iss"":""did:key:z"",""aud"":""did:b"",""exp"":null,""cap"":{},""fct"":{""x"":" ++ number ++ B "}}".
Definition tenth_token (number : bytes) : bytes := b64_encode tenth_header ++ B "." ++ b64_encode (tenth_payload number) ++ B "." ++ b64_encode (B "sig").
Definition tenth_ucan (number : bytes) : ucan :=
  mkUcan (mkHeader (B "EdDSA") (B "JWT"))
         (mkPayload (B "0.10.0-canary") (B "did:key:z") (B "did:b") None None None [] (Some [(B "x", VNum (Float tenth))]) None)
         (b64_encode tenth_header ++ B "." ++ b64_encode (tenth_payload number)) (B "sig").

(** Two spellings of 0.1: the same facts, and the same text once encoded again. *)
Example C136_example :
  x_f64_print double_ext = double_print /\ x_f64_parse double_ext = double_parse /\
  parse_token double_ext (tenth_token (B "100e-3")) = Ok (tenth_ucan (B "100e-3")) /\
  parse_token double_ext (tenth_token (B "0.1000000000000000055")) = Ok (tenth_ucan (B "0.1000000000000000055")) /\
  payload_unreserved (u_payload (tenth_ucan (B "100e-3"))) /\
  parse_token double_ext (tenth_token (B "1e309")) = Err EPayloadJson.
Proof.
  split; [reflexivity|]. split; [reflexivity|]. split; [vm_compute; reflexivity|]. split; [vm_compute; reflexivity|]. split; [|vm_compute; reflexivity].
  split; [intros ? ? ? ? [] |]. intros f [= <-]. concrete.
Qed.

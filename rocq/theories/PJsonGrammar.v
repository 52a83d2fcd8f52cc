(** What is read as JSON, and what it says (C108). *)
From Verif Require Import Prelude Ord SMap BaseN Utf8 Value Cid Ext Json Capability Ucan Spec SpecIpldSerde SpecWire SpecJson Samples JsonGrammarFacts.

(* ------------------------------------------------------------------ C108 *)

(** Exactly the documents of RFC 8259, at most 127 deep, and what they say. *)
Theorem C108_documents : forall X t i, (x_dagjson_end X = true \/ (forall z, i <> IInt z) /\ (forall f, i <> IFloat f)) ->
  (dagjson_decode X t = Some i <-> json_document X t i).
Proof. exact dagjson_grammar. Qed.
Print Assumptions C108_documents.

(** Exactly the byte strings that are UTF-8. *)
Theorem C108_utf8 : forall s, utf8_valid s = true <-> utf8_text s.
Proof. exact utf8_valid_iff. Qed.
Print Assumptions C108_utf8.

(** Exactly the texts that are read as tokens, down to the bytes. *)
Theorem C108_tokens : forall X t u, parse_token X t = Ok u <-> token_grammar X t u.
Proof. exact token_grammar_iff. Qed.
Print Assumptions C108_tokens.

(** White space, escapes with a surrogate pair, a repeated key (the last one counts), an integer, bytes, an empty array. *)
Definition odd_text : bytes :=
  B " {""b"":1 , ""a"":[ ],""b"":-12,""c\t"":""\ud83d\ude00\/"",""d"":{""/"":{""bytes"":""+/8""}}} ".
Definition odd_data : ipld :=
  IMap [(B "a", IList []); (B "b", IInt (-12)); ([x63; x09], IStr [xf0; x9f; x98; x80; x2f]); (B "d", IBytes [xfb; xff])].

Example C108_example :
  dagjson_decode sample_ext odd_text = Some odd_data /\ json_document sample_ext odd_text odd_data /\
  (* a lone surrogate, a leading zero, a trailing comma, a control character, an overlong form *)
  Forall (fun t => dagjson_decode sample_ext t = None) [B """\ud83d"""; B "[01]"; B "[1,]"; [x22; x0a; x22]; [x22; xc0; x80; x22]].
Proof.
  assert (dagjson_decode sample_ext odd_text = Some odd_data) as H by (vm_compute; reflexivity).
  split; [exact H | split; [|repeat constructor]].
  apply C108_documents; [right; split; intros; discriminate | exact H].
Qed.

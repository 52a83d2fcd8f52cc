(** The parameters of the model: behaviour of third-party code and of the
    environment that is deliberately left open.  Theorems quantify over every
    value of this record; any assumption about a field is a visible hypothesis
    of the theorem that needs it. *)
From Verif Require Import Prelude Value Cid Url.

Record ext := mkExt {
  (** serde_json (ryu) text of a finite double, and its inverse on JSON number
      tokens that are not in-range integers. *)
  x_f64_print : f64 -> bytes;
  x_f64_parse : bytes -> option f64;
  (** Whether serde_json's [Value] accepts the i128 through which libipld-core
      hands over integers ([Visitor::visit_i128]); depends on crate versions. *)
  x_value_i128 : bool;
  (** Whether libipld-json's decoder rejects input after the JSON value. *)
  x_dagjson_end : bool;
  (** Multibase decoding for prefixes other than 'b' and 'z'. *)
  x_multibase : byte -> bytes -> option bytes;
  (** Url::parse on special schemes and on paths starting with '/'. *)
  x_url_hier : bytes -> bytes -> option url;
  (** The multihash digest functions ([Code::digest]) by multihash code. *)
  x_hash : N -> bytes -> bytes;
  (** Whether integer overflow panics (debug builds) or wraps (release builds). *)
  x_overflow_checks : bool
}.

Definition parse_cid (X : ext) (s : bytes) : option cid := cid_of_string (x_multibase X) s.
Definition parse_url (X : ext) (s : bytes) : option url := url_parse (x_url_hier X) s.

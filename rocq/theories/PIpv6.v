(** IPv6 addresses as hosts (C164-C165). *)
From Verif Require Import Prelude Url Ext Value Capability Semantics Hier Ipv6 Fixtures Spec SpecWire SpecUrl SpecHier SpecIpv6 Ipv6Facts SampleHier SampleIpv6.

(* ------------------------------------------------------------------ C164 *)

(** Exactly the texts of addresses, and of which. *)
Theorem C164_read : forall t l, v6_parse t = Some l <-> address_text t l.
Proof. exact v6_parse_iff. Qed.
Print Assumptions C164_read.

(** What is read are eight 16-bit numbers; no text has two meanings. *)
Theorem C164_addresses : forall t l, address_text t l -> address l /\ forall l', address_text t l' -> l' = l.
Proof. exact (fun t l H => conj (address_text_address t l H) (fun l' H' => address_text_unique t l' l H' H)). Qed.
Print Assumptions C164_addresses.

(** Addresses are printed as RFC 5952 demands. *)
Theorem C164_print : forall l t, address l -> (v6_print l = t <-> canonical_address l t).
Proof. exact (fun l t H => v6_print_iff l t (address_nonnil l H)). Qed.
Print Assumptions C164_print.

(** Every address is read back from its text. *)
Theorem C164_again : forall l, address l -> v6_parse (v6_print l) = Some l.
Proof. exact print_parse. Qed.
Print Assumptions C164_again.

Example C164_example :
  address_text (B "2001:DB8:0:0:1::192.0.2.33") [0x2001; 0xdb8; 0; 0; 1; 0; 0xc000; 0x221]%N /\
  canonical_address [0x2001; 0xdb8; 0; 0; 1; 0; 0xc000; 0x221]%N (B "2001:db8::1:0:c000:221") /\
  v6_print [1; 0; 0; 0; 2; 0; 0; 0]%N = B "1::2:0:0:0" /\ v6_print [1; 0; 2; 3; 4; 5; 6; 7]%N = B "1:0:2:3:4:5:6:7" /\
  address_text (B "::") [0; 0; 0; 0; 0; 0; 0; 0]%N /\ address_text (B "1:2:3:4:5:6:7::") [1; 2; 3; 4; 5; 6; 7; 0]%N /\
  (* not addresses: too few and too many pieces, two gaps, five digits, a colon at either end, numbers above 255 or with zeros in front *)
  map v6_parse [B ""; B "1:2:3:4:5:6:7"; B "1:2:3:4:5:6:7:8:9"; B "1::2::3"; B "::12345"; B ":1:2:3:4:5:6:7"; B "1:2:3:4:5:6:7:"; B "::1.2.3.256"; B "::1.2.3.04"; B "::1.2.3"; B "1:2:3:4:5:6:7:1.2.3.4"]
    = repeat None 11 /\
  (* eight pieces and a gap for nothing *)
  v6_parse (B "1:2:3:4::5:6:7:8") = None.
Proof.
  split; [apply C164_read; vm_compute; reflexivity|].
  split; [apply C164_print; [split; [reflexivity | repeat constructor; vm_compute; reflexivity] | vm_compute; reflexivity]|].
  split; [vm_compute; reflexivity|]. split; [vm_compute; reflexivity|]. split; [apply C164_read; vm_compute; reflexivity|].
  split; [apply C164_read; vm_compute; reflexivity|]. split; vm_compute; reflexivity.
Qed.

(* ------------------------------------------------------------------ C165 *)

(** A host in brackets is read exactly if it is an address, and is its text in RFC 5952. *)
Theorem C165_host : forall X t p, follows url2_rules X -> visible (t ++ p) -> Forall (fun c => ~ In c (B "/?#@[]")) t -> (p = [] \/ exists r, p = B "/" ++ r) ->
  ((exists s, names_scope X (B "wnfs://[" ++ t ++ B "]" ++ p) s) <-> exists l, address_text t l) /\
  (forall s l h, names_scope X (B "wnfs://[" ++ t ++ B "]" ++ p) s -> address_text t l -> canonical_address l h -> w_origin s = B "[" ++ h ++ B "]").
Proof. exact hosts_read. Qed.
Print Assumptions C165_host.

(** Texts of the same address name the same scope. *)
Theorem C165_same : forall X t t' l p s, follows url2_rules X -> address_text t l -> address_text t' l -> visible p -> (p = [] \/ exists r, p = B "/" ++ r) ->
  (names_scope X (B "wnfs://[" ++ t ++ B "]" ++ p) s <-> names_scope X (B "wnfs://[" ++ t' ++ B "]" ++ p) s).
Proof. exact same_scopes. Qed.
Print Assumptions C165_same.

(** A scope on one address contains nothing on another. *)
Theorem C165_apart : forall X t t' l l' p p' s s', follows url2_rules X -> address_text t l -> address_text t' l' -> visible p -> visible p' ->
  (p = [] \/ exists r, p = B "/" ++ r) -> (p' = [] \/ exists r, p' = B "/" ++ r) ->
  names_scope X (B "wnfs://[" ++ t ++ B "]" ++ p) s -> names_scope X (B "wnfs://[" ++ t' ++ B "]" ++ p') s' ->
  sc_contains wnfs_scope s s' = true -> l = l'.
Proof. exact scopes_apart. Qed.
Print Assumptions C165_apart.

(** The text a scope prints as is read as that scope, whatever its host. *)
Theorem C165_stable : forall X t s, follows url2_rules X -> names_scope X t s -> names_scope X (sc_to_string wnfs_scope s) s.
Proof. exact stable_here. Qed.
Print Assumptions C165_stable.

Example C165_example :
  follows url2_rules v6_ext /\
  names_scope v6_ext (B "wnfs://[0:0::0:1]/public") (mkWnfs (B "[::1]") (B "/public")) /\
  names_scope v6_ext (B "wnfs://bob@[::0.0.0.1]:80/private/../public?q") (mkWnfs (B "[::1]") (B "/public")) /\
  sc_to_string wnfs_scope (mkWnfs (B "[::1]") (B "/public")) = B "wnfs://[::1]/public" /\
  names_scope v6_ext (B "wnfs://[::1]/public") (mkWnfs (B "[::1]") (B "/public")) /\
  (* the address without brackets, and an IPv4 address beside the same one inside IPv6 *)
  ~ names_scope v6_ext (B "wnfs://::1/public") (mkWnfs (B "::1") (B "/public")) /\
  names_scope v6_ext (B "wnfs://[::ffff:1.2.3.4]/") (mkWnfs (B "[::ffff:102:304]") (B "/")) /\
  names_scope v6_ext (B "wnfs://1.2.3.4/") (mkWnfs (B "1.2.3.4") (B "/")) /\
  sc_contains wnfs_scope (mkWnfs (B "[::ffff:102:304]") (B "/")) (mkWnfs (B "1.2.3.4") (B "/")) = false.
Proof.
  split; [exact v6_follows|]. split; [apply v6_reads; vm_compute; reflexivity|]. split; [apply v6_reads; vm_compute; reflexivity|].
  split; [vm_compute; reflexivity|]. split; [apply v6_reads; vm_compute; reflexivity|]. split; [apply v6_reads_not; vm_compute; exact I|].
  split; [apply v6_reads; vm_compute; reflexivity|]. split; [apply v6_reads; vm_compute; reflexivity|]. vm_compute. reflexivity.
Qed.

(** ucan/src/ipld/{principle,signature,ucan}.rs and ucan/src/crypto/signature.rs *)
From Verif Require Import Prelude Ord SMap Base58 Varint Utf8 Value Cid Ext Capability Key Ucan.

(* ------------------------------------------------------------ crypto/signature.rs *)

(** signature.rs:6-12 *)
Inductive jwt_alg : Set := EdDSA | RS256 | ES256 | ES384 | ES512.

(** strum [Display] *)
Definition alg_to_string (a : jwt_alg) : bytes :=
  match a with
  | EdDSA => B "EdDSA" | RS256 => B "RS256" | ES256 => B "ES256"
  | ES384 => B "ES384" | ES512 => B "ES512"
  end.

(** strum [EnumString] *)
Definition alg_of_string (s : bytes) : res jwt_alg :=
  if bytes_eqb s (B "EdDSA") then Ok EdDSA
  else if bytes_eqb s (B "RS256") then Ok RS256
  else if bytes_eqb s (B "ES256") then Ok ES256
  else if bytes_eqb s (B "ES384") then Ok ES384
  else if bytes_eqb s (B "ES512") then Ok ES512
  else Err EAlgorithmName.

(* --------------------------------------------------------------- ipld/principle.rs *)

(** [Principle(Vec<u8>)], principle.rs:9-11 *)
Definition principle := bytes.

(** principle.rs:7 *)
Definition did_ipld_prefix : bytes := [x9d; x1a].

(** [FromStr for Principle], principle.rs:16-24 *)
Definition principle_of_string (s : bytes) : res principle :=
  match strip_prefix did_key_prefix s with
  | Some stripped => ok_or (b58_decode stripped) EBase58
  | None =>
      match strip_prefix did_prefix s with
      | Some stripped => Ok (did_ipld_prefix ++ stripped)
      | None => Err ENotADid
      end
  end.

(** [to_string] through [Display for Principle], principle.rs:28-40; a
    [fmt::Error] makes [ToString::to_string] panic. *)
Definition principle_to_string (p : principle) : res bytes :=
  match p with
  | b0 :: b1 :: rest =>
      if bytes_eqb [b0; b1] did_ipld_prefix then
        if utf8_valid rest then Ok (did_prefix ++ rest) else Panic PPrincipleFmt
      else Ok (did_key_prefix ++ b58_encode p)
  | _ => Panic PPrincipleSlice
  end.

(* --------------------------------------------------------------- ipld/signature.rs *)

(** signature.rs:25-36 *)
Inductive varsig : Set :=
| VNonStandard | VES256K | VBLS12381G1 | VBLS12381G2 | VEdDSA
| VES256 | VES384 | VES512 | VRS256 | VEIP191.

(** signature.rs:38-50 *)
Definition varsig_of_alg (a : jwt_alg) : varsig :=
  match a with
  | EdDSA => VEdDSA | RS256 => VRS256 | ES256 => VES256 | ES384 => VES384 | ES512 => VES512
  end.

(** signature.rs:52-70 *)
Definition alg_of_varsig (v : varsig) : res jwt_alg :=
  match v with
  | VEdDSA => Ok EdDSA | VRS256 => Ok RS256 | VES256 => Ok ES256
  | VES384 => Ok ES384 | VES512 => Ok ES512
  | _ => Err EVarsigAlgorithm
  end.

(** [FromStr for VarsigPrefix], signature.rs:72-78 *)
Definition varsig_of_string (s : bytes) : res varsig :=
  let? a := alg_of_string s in Ok (varsig_of_alg a).

(** signature.rs:8-17 and :80-95 *)
Definition varsig_code (v : varsig) : N :=
  match v with
  | VNonStandard => 53248      (* 0xd000 *)
  | VES256K => 53479           (* 0xd0e7 *)
  | VBLS12381G1 => 53482       (* 0xd0ea *)
  | VBLS12381G2 => 53483       (* 0xd0eb *)
  | VEdDSA => 53485            (* 0xd0ed *)
  | VES256 => 13636096         (* 0xd01200 *)
  | VES384 => 13636097         (* 0xd01201 *)
  | VES512 => 13636098         (* 0xd01202 *)
  | VRS256 => 13636101         (* 0xd01205 *)
  | VEIP191 => 53649           (* 0xd191 *)
  end.

(** signature.rs:97-115 *)
Definition varsig_of_code (n : N) : res varsig :=
  if (n =? 53485)%N then Ok VEdDSA
  else if (n =? 13636101)%N then Ok VRS256
  else if (n =? 53479)%N then Ok VES256K
  else if (n =? 53482)%N then Ok VBLS12381G1
  else if (n =? 53483)%N then Ok VBLS12381G2
  else if (n =? 53649)%N then Ok VEIP191
  else if (n =? 13636096)%N then Ok VES256
  else if (n =? 13636097)%N then Ok VES384
  else if (n =? 13636098)%N then Ok VES512
  else if (n =? 53248)%N then Ok VNonStandard
  else Err EVarsigPrefix.

(** [TryFrom<(JwtSignatureAlgorithm, T)> for Signature], signature.rs:145-158 *)
Definition signature_encode (a : jwt_alg) (sig : bytes) : bytes :=
  varint_encode (varsig_code (varsig_of_alg a)) ++ varint_encode (N.of_nat (length sig)) ++ sig.

(** [Signature::decode], signature.rs:125-136 *)
Definition signature_decode (s : bytes) : res (jwt_alg * bytes) :=
  let? (prefix, buffer) := ok_or (varint_decode s) EVarint in
  let? (len, buffer) := ok_or (varint_decode buffer) EVarint in
  let? v := varsig_of_code prefix in
  let? a := alg_of_varsig v in
  if (len <=? N.of_nat (length buffer))%N
  then Ok (a, firstn (N.to_nat len) buffer)
  else Panic PVarsigSlice.

(* -------------------------------------------------------------------- ipld/ucan.rs *)

(** [UcanIpld], ipld/ucan.rs:12-27 *)
Record ucan_ipld := mkUcanIpld {
  ui_v : bytes;
  ui_iss : principle;
  ui_aud : principle;
  ui_s : bytes;
  ui_cap : capabilities;
  ui_prf : option (list cid);
  ui_exp : option N;
  ui_fct : option facts;
  ui_nnc : option bytes;
  ui_nbf : option N
}.

Fixpoint parse_cids (X : ext) (l : list bytes) : res (list cid) :=
  match l with
  | [] => Ok []
  | s :: l' => let? c := ok_or (parse_cid X s) ECid in let? cs := parse_cids X l' in Ok (c :: cs)
  end.

(** [TryFrom<&Ucan> for UcanIpld], ipld/ucan.rs:29-63 *)
Definition ucan_to_ipld (X : ext) (u : ucan) : res ucan_ipld :=
  let p := u_payload u in
  let? prf := match p_prf p with
              | Some proofs => let? cs := parse_cids X proofs in
                               Ok (match cs with [] => None | _ => Some cs end)
              | None => Ok None
              end in
  let? iss := principle_of_string (p_iss p) in
  let? aud := principle_of_string (p_aud p) in
  let? alg := alg_of_string (h_alg (u_header u)) in
  Ok {| ui_v := p_ucv p; ui_iss := iss; ui_aud := aud;
        ui_s := signature_encode alg (u_signature u);
        ui_cap := p_cap p; ui_prf := prf; ui_exp := p_exp p; ui_fct := p_fct p;
        ui_nnc := p_nnc p; ui_nbf := p_nbf p |}.

(** [TryFrom<&UcanIpld> for Ucan], ipld/ucan.rs:65-101 *)
Definition ucan_of_ipld (X : ext) (i : ucan_ipld) : res ucan :=
  let? (alg, sig) := signature_decode (ui_s i) in
  let h := mkHeader (alg_to_string alg) (B "JWT") in
  let? iss := principle_to_string (ui_iss i) in
  let? aud := principle_to_string (ui_aud i) in
  let p := {| p_ucv := ucan_version; p_iss := iss; p_aud := aud;
              p_exp := ui_exp i; p_nbf := ui_nbf i; p_nnc := ui_nnc i; p_cap := ui_cap i;
              p_fct := ui_fct i;
              p_prf := option_map (map cid_to_string) (ui_prf i) |} in
  Ok (mkUcan h p (signing_input X h p) sig).

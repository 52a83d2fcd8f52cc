(** UTF-8: the validity test of [std::str::from_utf8] (store.rs:83,
    principle.rs:33) and the encoding of a scalar value (JSON \u escapes). *)
From Verif Require Import Prelude.

Definition in_range (lo hi : N) (c : byte) : bool := (lo <=? bN c)%N && (bN c <=? hi)%N.
Definition is_cont (c : byte) : bool := in_range 128 191 c.

Fixpoint utf8_valid (s : bytes) : bool :=
  match s with
  | [] => true
  | a :: s1 =>
      if (bN a <? 128)%N then utf8_valid s1
      else match s1 with
      | [] => false
      | b :: s2 =>
          if in_range 194 223 a then is_cont b && utf8_valid s2
          else match s2 with
          | [] => false
          | c :: s3 =>
              if in_range 224 239 a then
                (if (bN a =? 224)%N then in_range 160 191 b
                 else if (bN a =? 237)%N then in_range 128 159 b
                 else is_cont b) && is_cont c && utf8_valid s3
              else match s3 with
              | [] => false
              | d :: s4 =>
                  if in_range 240 244 a then
                    (if (bN a =? 240)%N then in_range 144 191 b
                     else if (bN a =? 244)%N then in_range 128 143 b
                     else is_cont b) && is_cont c && is_cont d && utf8_valid s4
                  else false
              end
          end
      end
  end.

(** [char::encode_utf8] for a scalar value. *)
Definition utf8_encode (n : N) : bytes :=
  if (n <? 128)%N then [byteN n]
  else if (n <? 2048)%N then [byteN (192 + n / 64); byteN (128 + n mod 64)]
  else if (n <? 65536)%N then
    [byteN (224 + n / 4096); byteN (128 + (n / 64) mod 64); byteN (128 + n mod 64)]
  else
    [byteN (240 + n / 262144); byteN (128 + (n / 4096) mod 64);
     byteN (128 + (n / 64) mod 64); byteN (128 + n mod 64)].

(** * SpecUnicode: UTF-8 by arithmetic on code points (RFC 3629), and White_Space.

    Nothing here comes from the model except the type of strings. *)

From Verif Require Import Base.

Open Scope N_scope.

(** Unicode scalar values: all code points but the surrogates. *)
Definition scalar_value (n : N) : Prop := n < 55296 \/ 57344 <= n < 1114112.

(** The bytes of one code point. *)
Definition encoding (n : N) : list N :=
  if n <? 128 then [n]
  else if n <? 2048 then [192 + n / 64; 128 + n mod 64]
  else if n <? 65536 then [224 + n / 4096; 128 + n / 64 mod 64; 128 + n mod 64]
  else [240 + n / 262144; 128 + n / 4096 mod 64; 128 + n / 64 mod 64; 128 + n mod 64].

(** [s] is the encoding of [n], or of all of [ns]. *)
Definition encodes (n : N) (s : str) : Prop := scalar_value n /\ map Byte.to_N s = encoding n.

Definition text_of (ns : list N) (s : str) : Prop :=
  Forall scalar_value ns /\ map Byte.to_N s = concat (map encoding ns).

(** The code points with the property White_Space (PropList.txt). *)
Definition white_space (n : N) : Prop :=
  9 <= n <= 13 \/ n = 32 \/ n = 133 \/ n = 160 \/ n = 5760 \/ 8192 <= n <= 8202 \/
  n = 8232 \/ n = 8233 \/ n = 8239 \/ n = 8287 \/ n = 12288.

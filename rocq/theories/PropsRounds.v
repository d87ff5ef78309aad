(** * PropsRounds: property theorems (generated from RoundsProofs.v by tools/gen_props.py).

    Only statements; each is closed by the lemma of the same name. *)

From Verif Require Import Base Wide Tags SpecRounds RoundsProofs.

(** C96. The loops that search for the end of the tags: the one over four vectors goes
    round once for each four vectors, and leaves at most four for the one over single
    vectors. *)
Theorem c96_search :
  forall (v : backend) (addr : nat) (data : list byte) (c : byte) (o : nat),
    ends_within (fun f => find_unrolled f v addr data c o) (1 + (length data - o - 1) / (4 * vsize v)) /\
    forall f o', find_unrolled f v addr data c o = Ret (More o') ->
      ends_within (fun f => find_single f v addr data c o') 5.
Proof. exact p_c96_search. Qed.
Print Assumptions c96_search.

(** C96. The loop over the tag section goes round once for each vector. *)
Theorem c96_chunks :
  forall (v : backend) (rem : list byte) (st : tstate) (tags : array),
    ends_within (fun f => simd_chunks f v rem 0 st tags) (1 + (length rem - 1) / vsize v).
Proof. exact p_c96_chunks. Qed.
Print Assumptions c96_chunks.

(** C96. Within a vector, the loop goes round once for each [=] or [;]. *)
Theorem c96_separators :
  forall (v : backend) (off : nat) (chunk : vector) (st : tstate) (tags : array),
    length chunk = vsize v ->
    ends_within (fun f => parse_chunk_loop f v off (movemask v (veq v chunk "=")) (movemask v (veq v chunk ";")) st tags)
      (1 + separators chunk).
Proof. exact p_c96_separators. Qed.
Print Assumptions c96_separators.

(** C96. The search goes no further than the byte it looks for: how long the line is
    behind it does not count. *)
Theorem c96_stops :
  forall (v : backend) (addr : nat) (l r : list byte) (c : byte) (o : nat),
    (addr + o) mod vsize v = 0 -> o <= length l ->
    ends_within (fun f => find_unrolled f v addr (l ++ c :: r) c o) (1 + (length l - o) / (4 * vsize v)).
Proof. exact p_c96_stops. Qed.
Print Assumptions c96_stops.

(** C96. These numbers are reached. *)
Example example_c96 :
  let data := repeat "x"%byte 200 ++ b " " ++ repeat "y"%byte 400 in
  (4 + 12) mod vsize Sse2 = 0 /\
  find_unrolled 3 Sse2 4 data " " 12 = Ret (Found 200) /\
  find_unrolled 2 Sse2 4 data " " 12 = NoFuel /\
  find_unrolled 9 Sse2 4 data "=" 12 = NoFuel /\ find_unrolled 10 Sse2 4 data "=" 12 = Ret (More 588) /\
  (let four := repeat "x"%byte 76 in find_unrolled 1 Sse2 4 four " " 12 = Ret (More 12) /\
     find_single 5 Sse2 4 four " " 12 = Ret (More 76) /\ find_single 4 Sse2 4 four " " 12 = NoFuel) /\
  simd_chunks 5 Avx2 (firstn 129 data) 0 (Key 0) array_new <> NoFuel /\
  simd_chunks 4 Avx2 (firstn 129 data) 0 (Key 0) array_new = NoFuel /\
  (let chunk := b "a=b;c=d;e=f;gggg" in let loop f :=
     parse_chunk_loop f Neon 0 (movemask Neon (veq Neon chunk "=")) (movemask Neon (veq Neon chunk ";")) (Key 0) array_new in
   length chunk = vsize Neon /\ separators chunk = 6 /\ loop 6 = NoFuel /\ loop 7 <> NoFuel).
Proof. exact ex_c96. Qed.

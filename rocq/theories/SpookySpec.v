(** SpookyHash V2 as Bob Jenkins publishes it, written from the published macros:
    every mixer is a sequence of rows that differ only by a rotation of the variable
    names and by a rotation distance, so it is given here by one row and the list of
    distances.  Words are numbers below 2^64; additions are modulo 2^64. *)
From Coq Require Import NArith List Arith.
From Verif Require Import Words Mm3Spec.
Import ListNotations.
Open Scope N_scope.

(** The three kinds of step. *)
Inductive arx := Add_ (d s : nat) | Xor_ (d s : nat) | Rot_ (d : nat) (k : N).
Fixpoint set_nth (l : list N) (i : nat) (x : N) : list N :=
  match l, i with
  | [], _ => []
  | _ :: r, O => x :: r
  | y :: r, S i => y :: set_nth r i x
  end.
Definition arx_step (st : list N) (o : arx) : list N :=
  match o with
  | Add_ d s => set_nth st d ((nth d st 0 + nth s st 0) mod 2 ^ 64)
  | Xor_ d s => set_nth st d (N.lxor (nth d st 0) (nth s st 0))
  | Rot_ d k => set_nth st d (rol 64 (nth d st 0) k)
  end.
Definition arx_run (p : list arx) (st : list N) : list N := fold_left arx_step p st.
Definition rows (row : nat -> N -> list arx) (rots : list N) : list arx :=
  concat (map (fun x => row (fst x) (snd x)) (combine (seq 0 (length rots)) rots)).

(** s0 += data[0]; s2 ^= s10; s11 ^= s0; s0 = Rot64(s0,11); s11 += s1; and so on. *)
Definition mix_row (i : nat) (k : N) : list arx :=
  let v j := ((i + j) mod 12)%nat in
  [Add_ (v 0) (12 + i); Xor_ (v 2) (v 10); Xor_ (v 11) (v 0); Rot_ (v 0) k; Add_ (v 11) (v 1)]%nat.
Definition spec_mix (data s : list N) : list N :=
  firstn 12 (arx_run (rows mix_row [11; 32; 43; 31; 17; 28; 39; 57; 55; 54; 22; 46]) (s ++ data)).
(** h11 += h1; h2 ^= h11; h1 = Rot64(h1,44); and so on. *)
Definition end_row (i : nat) (k : N) : list arx :=
  let v j := ((i + j) mod 12)%nat in
  [Add_ (v 11) (v 1); Xor_ (v 2) (v 11); Rot_ (v 1) k]%nat.
Definition spec_end_partial (h : list N) : list N :=
  arx_run (rows end_row [44; 15; 34; 21; 38; 33; 10; 13; 38; 53; 42; 54]) h.
Definition spec_end (data h : list N) : list N :=
  let h := map (fun x => (fst x + snd x) mod 2 ^ 64) (combine h data) in
  spec_end_partial (spec_end_partial (spec_end_partial h)).
(** h2 = Rot64(h2,50); h2 += h3; h0 ^= h2; and so on. *)
Definition short_row (i : nat) (k : N) : list arx :=
  let v j := ((i + j) mod 4)%nat in
  [Rot_ (v 2) k; Add_ (v 2) (v 3); Xor_ (v 0) (v 2)]%nat.
Definition spec_short_mix (h : list N) : list N :=
  arx_run (rows short_row [50; 52; 30; 41; 54; 48; 38; 37; 62; 34; 5; 36]) h.
(** h3 ^= h2; h2 = Rot64(h2,15); h3 += h2; and so on. *)
Definition short_end_row (i : nat) (k : N) : list arx :=
  let v j := ((i + j) mod 4)%nat in
  [Xor_ (v 3) (v 2); Rot_ (v 2) k; Add_ (v 3) (v 2)]%nat.
Definition spec_short_end (h : list N) : list N :=
  arx_run (rows short_end_row [15; 52; 26; 51; 28; 9; 47; 54; 32; 25; 63]) h.

Definition sc : N := 0xdeadbeefdeadbeef.
(** The little-endian words of a block. *)
Definition words (b : list N) : list N := map le_int (fst (blocks 8 b)).
Definition plus4 (h k : list N) : list N := map (fun x => (fst x + snd x) mod 2 ^ 64) (combine h k).
(** 32 bytes of a short message: the first half goes to the upper two words, mix, the
    second half to the lower two. *)
Definition spec_short_block (h b : list N) : list N :=
  let w i := nth i (words b) 0 in
  plus4 (spec_short_mix (plus4 h [0; 0; w 0%nat; w 1%nat])) [w 2%nat; w 3%nat; 0; 0].
(** Messages below 192 bytes (the function is defined for all). *)
Definition spec_short (m : list N) (h1 h2 : N) : N * N :=
  let '(bs, r) := blocks 32 m in
  let h := fold_left spec_short_block bs [h1; h2; sc; sc] in
  let '(h, r) :=
    if Nat.leb 16 (length r)
    then (spec_short_mix (plus4 h [0; 0; le_int (firstn 8 r); le_int (firstn 8 (skipn 8 r))]), skipn 16 r)
    else (h, r) in
  let h := plus4 h [0; 0; 0; (N.of_nat (length m) * 2 ^ 56) mod 2 ^ 64] in
  let t := match r with
           | [] => [0; 0; sc; sc]
           | _ => [0; 0; le_int (firstn 8 r); le_int (skipn 8 r)]
           end in
  let e := spec_short_end (plus4 h t) in
  (nth 0 e 0, nth 1 e 0).
(** Messages of 192 bytes or more: blocks of 96, then a final zero-padded block whose
    last byte is the length of the rest. *)
Definition spec_long (m : list N) (h1 h2 : N) : N * N :=
  let '(bs, r) := blocks 96 m in
  let h := fold_left (fun h b => spec_mix (words b) h) bs (concat (repeat [h1; h2; sc] 4)) in
  let e := spec_end (words (r ++ repeat 0 (95 - length r) ++ [N.of_nat (length r)])) h in
  (nth 0 e 0, nth 1 e 0).
Definition spookyhash_v2 (m : list N) (h1 h2 : N) : N * N :=
  if Nat.ltb (length m) 192 then spec_short m h1 h2 else spec_long m h1 h2.

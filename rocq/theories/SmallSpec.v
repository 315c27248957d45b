(** Specifications for the small hashes, in plain arithmetic. *)
From Coq Require Import NArith List Arith.
From Verif Require Import Words Mm3Spec.
Import ListNotations.
Open Scope N_scope.

(** The seed in force: the last one given, if any; of several seeds in one call the first. *)
Definition seed_in_force (s0 : N) (calls : list (list N * list N)) : N :=
  last (flat_map (fun c => firstn 1 (snd c)) calls) s0.

(** Sbox: every byte is xored in through the table T and the state tripled. *)
Definition sbox_step (T : list N) (h b : N) : N := (N.lxor h (nth (N.to_nat b) T 0) * 3) mod 2 ^ 32.
Definition sbox_final (h : N) : N := (h + N.lxor (h / 2 ^ 22) ((h * 16) mod 2 ^ 32)) mod 2 ^ 32.
Definition sbox_spec (T : list N) (key : list N) (seed : N) : N :=
  sbox_final (fold_left (sbox_step T) key ((N.of_nat (length key) + seed) mod 2 ^ 32)).

(** CrapWow: the key is cut in words; the words at even places are B words, those at odd
    places A words, and so are the last one to three bytes. *)
Inductive kind := A | B.
Definition leftover (r : list N) : list (kind * N) := match r with [] => [] | _ => [(A, le_int r)] end.
Fixpoint parts (key : list N) : list (kind * N) :=
  match key with
  | a :: b :: c :: d :: r =>
      (B, le_int [a; b; c; d]) ::
      match r with
      | e :: f :: g :: h :: r => (A, le_int [e; f; g; h]) :: parts r
      | _ => leftover r
      end
  | r => leftover r
  end.
Definition lo (x : N) : N := x mod 2 ^ 32.
Definition hi (x : N) : N := x / 2 ^ 32.
Definition MA : N := 0x57559429.
Definition MB : N := 0x5052acdb.
(** What a word adds to the two halves of the state, by xor. *)
Definition share (p : kind * N) : N * N :=
  match fst p with A => (hi (snd p * MA), lo (snd p * MA)) | B => (lo (snd p * MB), hi (snd p * MB)) end.
Definition xor2 (x y : N * N) : N * N := (N.lxor (fst x) (fst y), N.lxor (snd x) (snd y)).
Definition shares (ps : list (kind * N)) : N * N := fold_right xor2 (0, 0) (map share ps).
Definition crapwow_spec (key : list N) (seed : N) : N :=
  let n := lo (N.of_nat (length key)) in
  let '(h, k) := xor2 (n, (n + seed + MB) mod 2 ^ 32) (shares (parts key)) in
  let p := N.lxor h ((k + MB) mod 2 ^ 32) * MB in
  N.lxor (N.lxor k (hi p)) (N.lxor h (lo p)).

(** MaHash. *)
Definition ma_grind (x : N) : N := (x + N.lxor ((x * 64) mod 2 ^ 32) (x / 2 ^ 11)) mod 2 ^ 32.
Definition ma_step (T : list N) (ab : N * N) (c : N) : N * N :=
  let t := nth (N.to_nat c) T 0 in
  let a := rol 32 (ma_grind ((fst ab + t) mod 2 ^ 32)) 14 in
  let b := rol 32 (ma_grind ((snd ab + t) mod 2 ^ 32)) 18 in
  (a / 65536 + 65536 * (b mod 65536), b / 65536 + 65536 * (a mod 65536)).
Definition ma_skew (x : N) : N := N.lor ((x * 2 ^ 29) mod 2 ^ 64) (x / 2 ^ 34).
Definition mahash_spec (T : list N) (key : list N) : N :=
  let n := N.of_nat (length key) mod 2 ^ 32 in
  let '(a, b) := fold_left (ma_step T) key (n, n) in
  let d := a * 2 ^ 32 + b in
  N.lxor d (ma_skew ((d + N.lxor ((d * 2 ^ 13) mod 2 ^ 64) (d / 2 ^ 23)) mod 2 ^ 64)).

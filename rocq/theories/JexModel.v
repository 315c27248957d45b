(** Model of /repo/jenkins/example/example.go: the tester of lookup3 and the two
    benchmarks.  Times are not modelled. *)
From Coq Require Import NArith ZArith List Arith Bool.
From Verif Require Import Words Mem HashTableModel JenkinsModel.
Import ListNotations.
Open Scope N_scope.
Open Scope list_scope.

(** example.go:18-32 [stu]: the loop over [i]; [m] iterations are left. *)
Fixpoint stu_loop (b : list N) (m i : nat) : res (list N) :=
  match m with
  | O => Ok []
  | S m => t <~ peek_le b (4 * i) 4 ;; r <~ stu_loop b m (S i) ;; Ok (t :: r)
  end.
Definition stu (s : list N) : res (list N) := stu_loop s ((length s + 3) / 4) 0.

(** example.go:39-40. *)
Definition MAXPAIR : N := 6022.
Definition MAXLEN : nat := 70.
(** [a[i] = x] with Go's bounds check (jenkins/example/example.go:83-85). *)
Definition put (a : list N) (i : nat) (x : N) : res (list N) :=
  if Nat.ltb i (length a) then Ok (set_nth i x a) else Panics.
(** [a[i] ^= x] (example.go:87-92). *)
Definition xor_at (a : list N) (i : nat) (x : N) : res (list N) :=
  v <~ idx a i ;; put a i (N.lxor v x).
(** example.go:83-85, on one of the two slices: the first [n] bytes are cleared. *)
Fixpoint clear (a : list N) (n : nat) : res (list N) :=
  match n with
  | O => Ok a
  | S n => a <~ clear a n ;; put a n 0
  end.
(** example.go:87-88, 91-92: byte [i] of a key for the number [k], turned by [j]. *)
Definition spread (a : list N) (i : nat) (j k : N) : res (list N) :=
  a <~ xor_at a i (wrap 8 (shl32 k j)) ;;
  xor_at a i (wrap 8 (shr k (8 - j))).
(** example.go:69-76: the masks e, f, g, h, x, y (HASHSTATE is 1). *)
Definition masks := (N * N * N * N * N * N)%type.
Definition ones32 : N := 2 ^ 32 - 1.
Definition fresh : masks := (ones32, ones32, ones32, ones32, ones32, ones32).
(** [^c] of a uint32 (example.go:99). *)
Definition not32 (c : N) : N := N.lxor c ones32.
(** example.go:96-101. *)
Definition narrow_masks (c d : N) (ms : masks) : masks :=
  let '(e, f, g, h, x, y) := ms in
  (N.land e (N.lxor c d), N.land f (not32 (N.lxor c d)), N.land g c, N.land h (not32 c), N.land x d, N.land y (not32 d)).
(** example.go:102. *)
Definition finished (ms : masks) : bool :=
  let '(e, f, g, h, x, y) := ms in N.lor (N.lor (N.lor (N.lor (N.lor e f) g) h) x) y =? 0.
(** example.go:80-109: the trials; result the final [k], the masks and the slices. *)
Fixpoint trials (fuel : nat) (hlen i : nat) (j m k : N) (ms : masks) (a b : list N) : res (N * masks * (list N * list N)) :=
  if k <? MAXPAIR then
    match fuel with
    | O => NoFuel
    | S fuel =>
        a <~ clear a (hlen + 1) ;;
        b <~ clear b (hlen + 1) ;;
        a <~ spread a i j k ;;
        c <~ hash_bytes_length a (Z.of_nat hlen) m ;;
        b <~ spread b i j (k + 1) ;;
        d <~ hash_bytes_length b (Z.of_nat hlen) m ;;
        let ms := narrow_masks c d ms in
        if finished ms then Ok (k, ms, (a, b)) else trials fuel hlen i j m (k + 2) ms a b
    end
  else Ok (k, ms, (a, b)).

(** A line printed, example.go:114-116 and 126-127. *)
Inductive line :=
| Stuck (ms : masks) (i : nat) (j m : N) (hlen : nat)
| Mixed (i : nat) (m : N) (required : N).
(** example.go:66-68: the values of the three loop variables, in order. *)
Definition cases (hlen : nat) : list (nat * N * N) :=
  flat_map (fun i => flat_map (fun j => map (fun m => (i, j, m)) [1; 2; 3; 4; 5; 6; 7]) [0; 1; 2; 3; 4; 5; 6; 7]) (seq 0 hlen).
(** example.go:66-123: the three loops, left together by [goto done]; the result is
    [z], what was printed, and the slices. *)
Fixpoint sweep (hlen : nat) (l : list (nat * N * N)) (z : N) (a b : list N) : res (N * list line * (list N * list N)) :=
  match l with
  | [] => Ok (z, [], (a, b))
  | (i, j, m) :: l =>
      '(k, ms, (a, b)) <~ trials (S (N.to_nat MAXPAIR)) hlen i j m 0 fresh a b ;;
      let z := if z <? k then k else z in
      let out := if k =? MAXPAIR then [Stuck ms i j m hlen] else [] in
      if z =? MAXPAIR then Ok (z, out, (a, b))
      else '(z, r, ab) <~ sweep hlen l z a b ;; Ok (z, out ++ r, ab)
  end.
(** example.go:63-129: one round of the outer loop.  After the loops [i] is hlen
    and [m] is 8, or 0 if they did not run. *)
Definition round (hlen : nat) (a b : list N) : res (list line * (list N * list N)) :=
  '(z, out, ab) <~ sweep hlen (cases hlen) 0 a b ;;
  Ok (out ++ (if z <? MAXPAIR then [Mixed hlen (if Nat.eqb hlen 0 then 0 else 8) (z / 2)] else []), ab).
Fixpoint rounds (l : list nat) (a b : list N) : res (list (list line)) :=
  match l with
  | [] => Ok []
  | hlen :: l => '(out, (a, b)) <~ round hlen a b ;; r <~ rounds l a b ;; Ok (out :: r)
  end.
(** example.go:43-131 [driver2]: what is printed for each length. *)
Definition driver2 : res (list (list line)) :=
  rounds (seq 0 MAXLEN) (repeat 0 MAXLEN) (repeat 0 MAXLEN).

(** example.go:244: the keys that benchmark32 hashes; [byte(i)] is converted
    before it is shifted. *)
Definition key32 (i : N) : list N :=
  [N.land (wrap 8 i) 255; N.land (shr (wrap 8 i) 8) 255; N.land (shr (wrap 8 i) 16) 255; N.land (shr (wrap 8 i) 24) 255].
(** example.go:203-206: the keys that benchmark64 hashes. *)
Definition key64 (i : N) : list N :=
  let four := [wrap 8 (N.land i 255); wrap 8 (N.land (shr i 8) 255); wrap 8 (N.land (shr i 16) 255); wrap 8 (N.land (shr i 24) 255)] in
  let eight := four ++ four in
  eight ++ eight ++ eight.
Definition counted (n : nat) : list N := map N.of_nat (seq 0 n).
(** A loop over numbers that calls a hash function (example.go:202-208, 243-246). *)
Fixpoint hash_all (hf : N -> res N) (l : list N) : res (list N) :=
  match l with [] => Ok [] | i :: l => h <~ hf i ;; r <~ hash_all hf l ;; Ok (h :: r) end.
(** example.go:235-255 [benchmark32]: the hashes, which are thrown away.  A
    negative count runs no loop. *)
Definition benchmark32 (n : Z) : res (list N) := hash_all (fun i => hash232 (key32 i) 0) (counted (Z.to_nat n)).
(** example.go:175-189 [checkForDups64], the loop: [k] is the position of the first
    element of [l] in [u]. *)
Fixpoint dups64_loop (u : list N) (k : nat) (l : list N) (i dups : nat) : nat :=
  match l with
  | [] => dups
  | v :: r =>
      if Nat.eqb k 0 || Nat.eqb i k then dups64_loop u (S k) r i dups
      else if nth i u 0 =? v then dups64_loop u (S k) r i (S dups)
      else dups64_loop u (S k) r k dups
  end.
Definition checkForDups64 (u : list N) : nat := dups64_loop u 0 u 0 0.
(** example.go:196-229 [benchmark64]: the number of duplicates printed; [sort] is
    sort.Sort on the hashes.  [make] panics on a negative count. *)
Definition benchmark64 (sort : list N -> list N) (n : Z) : res nat :=
  if (n <? 0)%Z then Panics
  else hs <~ hash_all (fun i => hash264 (key64 i) 0) (counted (Z.to_nat n)) ;; Ok (checkForDups64 (sort hs)).
(** example.go:300-309: the three hashes of a text that [main] prints. *)
Definition first_line (q : list N) : res (N * N * N) :=
  u <~ stu q ;;
  let n := Z.of_nat (length q) in
  h1 <~ hash_words_len u (Z.quot (n - 1) 4) 13 ;;
  h2 <~ hash_words_len u (Z.quot (n - 5) 4) 13 ;;
  h3 <~ hash_words_len u (Z.quot (n - 9) 4) 13 ;;
  Ok (h1, h2, h3).

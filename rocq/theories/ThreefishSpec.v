(** The Threefish block cipher as published (Skein specification, version 1.3,
    section 3.3), for 4, 8 and 16 words. *)
From Coq Require Import NArith List Arith.
From Verif Require Import Words Mm3Spec.
Import ListNotations.
Open Scope N_scope.

Record params := mkParams { Nw : nat; Nr : nat; Rot : list (list N); Pi : list nat }.
(** Table 4 (rotation constants, d mod 8) and table 3 (word permutation). *)
Definition P256 : params := mkParams 4 72
  [[14; 16]; [52; 57]; [23; 40]; [5; 37]; [25; 33]; [46; 12]; [58; 22]; [32; 32]]
  [0; 3; 2; 1]%nat.
Definition P512 : params := mkParams 8 72
  [[46; 36; 19; 37]; [33; 27; 14; 42]; [17; 49; 36; 39]; [44; 9; 54; 56];
   [39; 30; 34; 24]; [13; 50; 10; 17]; [25; 29; 39; 43]; [8; 35; 56; 22]]
  [2; 1; 4; 7; 6; 5; 0; 3]%nat.
Definition P1024 : params := mkParams 16 80
  [[24; 13; 8; 47; 8; 17; 22; 37]; [38; 19; 10; 55; 49; 18; 23; 52]; [33; 4; 51; 13; 34; 41; 59; 17];
   [5; 20; 48; 41; 47; 28; 16; 25]; [41; 9; 37; 31; 12; 47; 44; 30]; [16; 34; 56; 51; 4; 53; 42; 41];
   [31; 44; 47; 46; 19; 42; 44; 25]; [9; 48; 35; 52; 23; 31; 37; 20]]
  [0; 9; 2; 13; 6; 11; 4; 15; 10; 7; 12; 3; 14; 5; 8; 1]%nat.

Definition add (a b : N) : N := (a + b) mod 2 ^ 64.
Definition C240 : N := 0x1BD11BDAA9FC1A22.
(** The extended key and tweak. *)
Definition ext_key (key : list N) : list N := key ++ [fold_left N.lxor key C240].
Definition ext_tweak (t0 t1 : N) : list N := [t0; t1; N.lxor t0 t1].
(** Word i of subkey s. *)
Definition subkey (P : params) (K T : list N) (s i : nat) : N :=
  let k := nth ((s + i) mod (Nw P + 1)) K 0 in
  if Nat.eqb i (Nw P - 3) then add k (nth (s mod 3) T 0)
  else if Nat.eqb i (Nw P - 2) then add k (nth ((s + 1) mod 3) T 0)
  else if Nat.eqb i (Nw P - 1) then add k (N.of_nat s)
  else k.
Definition add_subkey (P : params) (K T : list N) (s : nat) (v : list N) : list N :=
  map (fun i => add (nth i v 0) (subkey P K T s i)) (seq 0 (Nw P)).
(** MIX on consecutive pairs. *)
Fixpoint mix_pairs (rots v : list N) : list N :=
  match rots, v with
  | r :: rots, x0 :: x1 :: v => let y0 := add x0 x1 in y0 :: N.lxor (rol 64 x1 r) y0 :: mix_pairs rots v
  | _, _ => []
  end.
Definition round (P : params) (K T v : list N) (d : nat) : list N :=
  let e := if Nat.eqb (d mod 4) 0 then add_subkey P K T (d / 4) v else v in
  let f := mix_pairs (nth (d mod 8) (Rot P) []) e in
  map (fun i => nth i f 0) (Pi P).
Definition threefish (P : params) (key : list N) (t0 t1 : N) (v : list N) : list N :=
  let K := ext_key key in
  let T := ext_tweak t0 t1 in
  add_subkey P K T (Nr P / 4) (fold_left (round P K T) (seq 0 (Nr P)) v).

(** ** What a cipher object is expected to do *)
Definition params_for (n : nat) : params := match n with 4%nat => P256 | 8%nat => P512 | _ => P1024 end.
(** Little-endian words of a byte string and back. *)
Fixpoint to_words (n : nat) (b : list N) : list N :=
  match n with O => [] | S n => le_int (firstn 8 b) :: to_words n (skipn 8 b) end.
Fixpoint le_bytes (n : nat) (x : N) : list N := match n with O => [] | S n => x mod 256 :: le_bytes n (x / 256) end.
Definition to_bytes (ws : list N) : list N := concat (map (le_bytes 8) ws).
(** The memory after the elements [bs] have been put at [off]. *)
Definition splice (mem : list N) (off : nat) (bs : list N) : list N :=
  firstn off mem ++ bs ++ skipn (off + length bs) mem.
(** A block of n words. *)
Definition is_block (n : nat) (v : list N) : Prop := length v = n /\ Forall (fun x => x < 2 ^ 64) v.

(** The calls on a cipher.  The buffers are regions (offset, number of elements) of a
    memory of bytes, or of words for the calls that end in 64. *)
Inductive call :=
| CSetKey (key : list N)
| CSetTweak (tweak : option (list N))
| CEncrypt (mem : list N) (dst src : nat * nat)
| CDecrypt (mem : list N) (dst src : nat * nat)
| CEncrypt64 (mem : list N) (dst src : nat * nat)
| CDecrypt64 (mem : list N) (dst src : nat * nat).
Definition in_mem (mem : list N) (s : nat * nat) : Prop := (fst s + snd s <= length mem)%nat.
Definition call_ok (a : call) : Prop :=
  match a with
  | CSetKey key => Forall (fun x => x < 2 ^ 64) key
  | CSetTweak None => True
  | CSetTweak (Some t) => Forall (fun x => x < 2 ^ 64) t
  | CEncrypt mem d s | CDecrypt mem d s => Forall (fun x => x < 256) mem /\ in_mem mem d /\ in_mem mem s
  | CEncrypt64 mem d s | CDecrypt64 mem d s => Forall (fun x => x < 2 ^ 64) mem /\ in_mem mem d /\ in_mem mem s
  end.
(** The abstract cipher: its key (of n words) and tweak. *)
Definition astate : Type := list N * N * N.
Definition enc (st : astate) (v : list N) : list N :=
  let '(key, t0, t1) := st in threefish (params_for (length key)) key t0 t1 v.
Definition size (st : astate) : nat := let '(key, _, _) := st in length key.
(** What a call does: None is a panic. *)
Definition does (st : astate) (a : call) (r : option (astate * list N)) : Prop :=
  let n := size st in
  match a with
  | CSetKey key =>
      r = if Nat.leb n (length key) then let '(_, t0, t1) := st in Some (firstn n key, t0, t1, []) else None
  | CSetTweak None => r = Some (st, [])
  | CSetTweak (Some t) =>
      match t with
      | t0 :: t1 :: _ => let '(key, _, _) := st in r = Some (key, t0, t1, [])
      | _ => r = None
      end
  | CEncrypt mem d s =>
      r = if Nat.leb (8 * n) (snd d) && Nat.leb (8 * n) (snd s)
          then Some (st, splice mem (fst d) (to_bytes (enc st (to_words n (skipn (fst s) mem))))) else None
  | CEncrypt64 mem d s =>
      r = if Nat.leb n (snd d) && Nat.leb n (snd s)
          then Some (st, splice mem (fst d) (enc st (firstn n (skipn (fst s) mem)))) else None
  | CDecrypt mem d s =>
      if Nat.leb (8 * n) (snd d) && Nat.leb (8 * n) (snd s)
      then exists v, is_block n v /\ enc st v = to_words n (skipn (fst s) mem) /\ r = Some (st, splice mem (fst d) (to_bytes v))
      else r = None
  | CDecrypt64 mem d s =>
      if Nat.leb n (snd d) && Nat.leb n (snd s)
      then exists v, is_block n v /\ enc st v = firstn n (skipn (fst s) mem) /\ r = Some (st, splice mem (fst d) v)
      else r = None
  end%bool.
(** A sequence of calls: the memories after each of them, up to the first panic. *)
Fixpoint runs_as (st : astate) (l : list call) (out : list (option (list N))) : Prop :=
  match l with
  | [] => out = []
  | a :: l =>
      exists r, does st a r /\
        match r with
        | Some (st', mem) => exists out', out = Some mem :: out' /\ runs_as st' l out'
        | None => out = [None]
        end
  end.

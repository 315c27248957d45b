(** Model of the vector instructions that the C files of package keccak use when they are
    built with UseSSE or UseMMX: the macros of KeccakF-1600-opt64.c:22-82 and the
    intrinsics behind them (emmintrin.h, mmintrin.h).  A 128-bit register is the pair of
    its low and high 64-bit halves. *)
From Coq Require Import NArith List Arith Bool.
From Verif Require Import Words ListLemmas Mem.
Import ListNotations.
Open Scope N_scope.

(** Memory operands: the array state or the array input of a macro, e.g.
    KeccakF-1600-simd128.macros.h:213. *)
Inductive arr := MState | MInput.
(** Right-hand sides of the assignments of the macros in KeccakF-1600-simd64.macros.h and
    KeccakF-1600-simd128.macros.h, in terms of the macros of KeccakF-1600-opt64.c:31-52 and
    67-78. *)
Inductive vexp :=
| VV (r : nat)                       (** a variable, or X.v128 of a V6464 (opt64.c:26-29) *)
| VHalf (r : nat) (h : bool)         (** LOAD64(X.v64[0]) or LOAD64(X.v64[1]), opt64.c:32 *)
| VConst (c : N)                     (** CONST64, opt64.c:33, 70, 74 *)
| VMem64 (m : arr) (i : nat)         (** LOAD64(m[i]), opt64.c:32, 69, 73 *)
| VMem128 (al : bool) (m : arr) (i : nat) (** LOAD128(m[i]) (al) or LOAD128u(m[i]), opt64.c:41-42 *)
| VXor (a b : vexp)                  (** XOR64, XOR128, opt64.c:36, 45, 78 *)
| VAndn (a b : vexp)                 (** ANDnu64, ANDnu128, opt64.c:31, 39, 67 *)
| VRol (a : vexp) (o : N)            (** ROL64, ROL64in128, opt64.c:34, 43, 77 *)
| VLo (a b : vexp)                   (** GET64LO, opt64.c:47 *)
| VHi (a b : vexp)                   (** GET64HI, opt64.c:48 *)
| VHi2Lo (a : vexp)                  (** COPY64HI2LO, opt64.c:49 *)
| VZero.                             (** ZERO128(), opt64.c:51 *)
(** Statements: X = e; (XOReq is X = X xor e, opt64.c:37, 46, 79); STORE64(state[i], e),
    opt64.c:35, 71, 75; state[i] = X.v64[h], e.g. KeccakF-1600-simd128.macros.h:606. *)
Inductive vstm := VSet (r : nat) (e : vexp) | VStore (i : nat) (e : vexp) | VStoreHalf (i r : nat) (h : bool).
(** The body of a macro, e.g. KeccakF-1600-simd64.macros.h:44-155. *)
Definition vprog := list vstm.

(** The operations on 64-bit words: andnot, opt64.c:67; the two shifts and or, opt64.c:77. *)
Definition andn64 (a b : N) : N := N.land (notw 64 a) b.
Definition rol_or (a o : N) : N := N.lor (shl64 a o) (shr a (64 - o)).

(** Local variables and the arrays state and input of KeccakPermutationOnWords and the
    like, KeccakF-1600-opt64.c:97-222. *)
Record vmem (V : Type) := mkV { vars : nat -> V; vstate : list N; vinput : list N }.
Arguments mkV {V}. Arguments vars {V}. Arguments vstate {V}. Arguments vinput {V}.
(** Assigning to a local variable, e.g. KeccakF-1600-simd64.macros.h:36. *)
Definition setv {V} (g : nat -> V) (r : nat) (x : V) : nat -> V := fun i => if Nat.eqb i r then x else g i.
(** The word i of an array operand, e.g. KeccakF-1600-simd64.macros.h:276. *)
Definition mword {V} (m : vmem V) (a : arr) (i : nat) : N := nth i (match a with MState => vstate m | MInput => vinput m end) 0.

(** UseMMX: V64 is __m64, opt64.c:64-83.  Only the macros with 64 in their names exist; the
    others do not occur in the programs that are run with it and give 0 here. *)
Fixpoint ev64 (m : vmem N) (e : vexp) : N :=
  match e with
  | VV r => vars m r
  | VConst c => c
  | VMem64 a i => mword m a i
  | VXor a b => N.lxor (ev64 m a) (ev64 m b)
  | VAndn a b => andn64 (ev64 m a) (ev64 m b)
  | VRol a o => rol_or (ev64 m a) o
  | _ => 0
  end.
(** UseSSE: V64 and V128 are __m128i, opt64.c:22-52: _mm_loadl_epi64 clears the high half,
    shifts are per half, _mm_unpacklo/hi_epi64(a, b) has the low/high half of a below that
    of b, _mm_shuffle_epi32(a, 0xEE) has the high half of a twice. *)
Fixpoint ev128 (m : vmem (N * N)) (e : vexp) : N * N :=
  match e with
  | VV r => vars m r
  | VHalf r h => (if h then snd (vars m r) else fst (vars m r), 0)
  | VConst c => (c, 0)
  | VMem64 a i => (mword m a i, 0)
  | VMem128 _ a i => (mword m a i, mword m a (S i))
  | VXor a b => (N.lxor (fst (ev128 m a)) (fst (ev128 m b)), N.lxor (snd (ev128 m a)) (snd (ev128 m b)))
  | VAndn a b => (andn64 (fst (ev128 m a)) (fst (ev128 m b)), andn64 (snd (ev128 m a)) (snd (ev128 m b)))
  | VRol a o => (rol_or (fst (ev128 m a)) o, rol_or (snd (ev128 m a)) o)
  | VLo a b => (fst (ev128 m a), fst (ev128 m b))
  | VHi a b => (snd (ev128 m a), snd (ev128 m b))
  | VHi2Lo a => (snd (ev128 m a), snd (ev128 m a))
  | VZero => (0, 0)
  end.
(** One statement and the body of a macro; _mm_storel_epi64 stores the low half, opt64.c:35, 71, 75. *)
Definition stm64 (m : vmem N) (s : vstm) : vmem N :=
  match s with
  | VSet r e => mkV (setv (vars m) r (ev64 m e)) (vstate m) (vinput m)
  | VStore i e => mkV (vars m) (upd (vstate m) i (ev64 m e)) (vinput m)
  | VStoreHalf _ _ _ => m
  end.
Definition stm128 (m : vmem (N * N)) (s : vstm) : vmem (N * N) :=
  match s with
  | VSet r e => mkV (setv (vars m) r (ev128 m e)) (vstate m) (vinput m)
  | VStore i e => mkV (vars m) (upd (vstate m) i (fst (ev128 m e))) (vinput m)
  | VStoreHalf i r h => mkV (vars m) (upd (vstate m) i (if h then snd (vars m r) else fst (vars m r))) (vinput m)
  end.
Definition run64 (p : vprog) (m : vmem N) : vmem N := fold_left stm64 p m.
Definition run128 (p : vprog) (m : vmem (N * N)) : vmem (N * N) := fold_left stm128 p m.

(** How many words of an array the body of a macro reads (it reads them unconditionally), and
    whether its aligned loads are aligned when the arrays state and input start at addresses
    that are ([als], [ali]) multiples of 16: _mm_load_si128 faults otherwise, opt64.c:41. *)
Definition arr_eqb (a b : arr) : bool := match a, b with MState, MState | MInput, MInput => true | _, _ => false end.
Fixpoint reads (a : arr) (e : vexp) : nat :=
  match e with
  | VMem64 a' i => if arr_eqb a a' then S i else 0
  | VMem128 _ a' i => if arr_eqb a a' then S (S i) else 0
  | VXor x y | VAndn x y | VLo x y | VHi x y => Nat.max (reads a x) (reads a y)
  | VRol x _ | VHi2Lo x => reads a x
  | _ => 0
  end%nat.
Definition preads (a : arr) (p : vprog) : nat :=
  fold_left (fun n s => match s with VSet _ e | VStore _ e => Nat.max n (reads a e) | VStoreHalf _ _ _ => n end) p 0%nat.
Fixpoint aligned (als ali : bool) (e : vexp) : bool :=
  match e with
  | VMem128 true a i => (match a with MState => als | MInput => ali end) && Nat.even i
  | VXor x y | VAndn x y | VLo x y | VHi x y => aligned als ali x && aligned als ali y
  | VRol x _ | VHi2Lo x => aligned als ali x
  | _ => true
  end%bool.
Definition paligned (als ali : bool) (p : vprog) : bool :=
  forallb (fun s => match s with VSet _ e | VStore _ e => aligned als ali e | VStoreHalf _ _ _ => true end) p.

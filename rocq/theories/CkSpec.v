(** What a user of package keccak sees. *)
From Verif Require Import Words Mem.
Open Scope N_scope.

Inductive kop := KWrite (p : list N) | KSum (b : list N) | KReset.
Inductive kout :=
| Wrote (n : nat) | WriteError | Summed (l : list N) | WasReset
| NeverReturns        (** a call does not return *)
| CorruptsMemory      (** a call accesses memory that is not its own *)
| Panicked.

(** The calls made on an object, until one does not return normally. *)
Fixpoint observe {D} (write : D -> list N -> res (D * nat * bool)) (sum : D -> list N -> res (list N)) (reset : D -> D)
    (d : D) (ops : list kop) : list kout :=
  match ops with
  | [] => []
  | KWrite p :: r =>
      match write d p with
      | Ok (d, n, err) => (if err then WriteError else Wrote n) :: observe write sum reset d r
      | NoFuel => [NeverReturns] | Overread => [CorruptsMemory] | Panics => [Panicked]
      end
  | KSum b :: r =>
      match sum d b with
      | Ok l => Summed l :: observe write sum reset d r
      | NoFuel => [NeverReturns] | Overread => [CorruptsMemory] | Panics => [Panicked]
      end
  | KReset :: r => WasReset :: observe write sum reset (reset d) r
  end.

(** What hash.Hash promises, for the hash h. *)
Fixpoint promised (h : list N -> list N) (data : list N) (ops : list kop) : list kout :=
  match ops with
  | [] => []
  | KWrite p :: r => Wrote (length p) :: promised h (data ++ p) r
  | KSum b :: r => Summed (b ++ h data) :: promised h data r
  | KReset :: r => WasReset :: promised h [] r
  end.

(** What becomes of a Write of n bytes when [have] bytes are in: with an empty queue it is
    fine; otherwise the length in bits is cut to 32 bits. *)
Inductive fate := Takes | Hangs | Spills.
Definition write_fate (B have n : N) : fate :=
  let q := 8 * (have mod B) in
  let r := (8 * n) mod 2 ^ 32 in
  if q =? 0 then Takes
  else if 2 ^ 32 <=? r + q then Spills
  else if 8 * n <? 2 ^ 32 then Takes
  else if 8 * B <=? r + q then Takes
  else Hangs.
Fixpoint delivered (B : nat) (h : list N -> list N) (data : list N) (ops : list kop) : list kout :=
  match ops with
  | [] => []
  | KWrite p :: r =>
      match write_fate (N.of_nat B) (N.of_nat (length data)) (N.of_nat (length p)) with
      | Takes => Wrote (length p) :: delivered B h (data ++ p) r
      | Hangs => [NeverReturns]
      | Spills => [CorruptsMemory]
      end
  | KSum b :: r => Summed (b ++ h data) :: delivered B h data r
  | KReset :: r => WasReset :: delivered B h [] r
  end.
(** Byte strings that fit in memory. *)
Definition kop_ok (o : kop) : Prop :=
  match o with KWrite p => bytes_ok p /\ 8 * N.of_nat (length p) < 2 ^ 64 | _ => True end.
(** The digest that [Reset; Write m; Sum nil] gives, if it gives one. *)
Definition digest_seen (l : list kout) : list N := match l with [WasReset; Wrote _; Summed d] => d | _ => [] end.
(** Lane complementing, as in the Keccak implementation overview: six lanes are kept
    complemented. *)
Definition complemented (A : list N) : list N :=
  map (fun i => if existsb (Nat.eqb i) [1; 2; 8; 12; 17; 20]%nat then 2 ^ 64 - 1 - nth i A 0 else nth i A 0) (seq 0 25).

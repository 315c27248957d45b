(** Specification of how a client uses a keccakpg digest: it allocates arrays, stores
    into them, and calls Write, Sum and Reset with slices of them.  A client is careful
    when, until the next Reset, it neither changes nor reuses an array it has handed to
    Write.  [behaves] says what such a client may rely on, call after call. *)
From Coq Require Import ZArith.
From Verif Require Import Words ListLemmas Mem KeccakModel.
Open Scope N_scope.

Inductive kop :=
| KAlloc (bs : list N)                 (** make a new array with these bytes *)
| KStore (a o : nat) (bs : list N)     (** copy(array a [o:], bs) *)
| KWrite (s : slice)
| KSum (s : slice)
| KReset.

(** A slice lies within its array. *)
Definition slice_ok (h : heap) (s : slice) : Prop :=
  (len s <= cap s)%nat /\ (off s + cap s <= length (array h (arr s)))%nat /\ (cap s = 0 \/ arr s < length h)%nat.
Definition free (busy : list nat) (s : slice) : Prop := cap s = 0%nat \/ ~ In (arr s) busy.
(** [digest]: the hash function; [data]: the bytes written since the last Reset; [busy]:
    the arrays handed to Write since then, and those the digest made for itself. *)
Fixpoint behaves (digest : list N -> list N) (grow : nat -> nat -> nat) (h : heap) (k : keccak) (data : list N) (busy : list nat) (ops : list kop) : Prop :=
  match ops with
  | [] => True
  | KAlloc bs :: r => bytes_ok bs -> behaves digest grow (h ++ [bs]) k data busy r
  | KStore a o bs :: r =>
      bytes_ok bs -> (a < length h)%nat -> (o + length bs <= length (array h a))%nat -> ~ In a busy ->
      behaves digest grow (store h a o bs) k data busy r
  | KWrite s :: r =>
      slice_ok h s -> free busy s ->
      exists h' k', Write grow (S (len s)) h k s = Ok (h', k', len s) /\
        (forall a, (a < length h)%nat -> ~ In a busy -> array h' a = array h a) /\
        behaves digest grow h' k' (data ++ read h s) (arr s :: seq (length h) (length h' - length h) ++ busy) r
  | KSum s :: r =>
      slice_ok h s -> free busy s ->
      exists h' s', Sum grow h k s = Ok (h', s') /\ read h' s' = read h s ++ digest data /\
        (forall a, (a < length h)%nat -> a <> arr s -> array h' a = array h a) /\
        behaves digest grow h' k data busy r
  | KReset :: r => behaves digest grow h (Reset k) [] [] r
  end.

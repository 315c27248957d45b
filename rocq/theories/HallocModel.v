(** Model of hashf.Halloc and of the objects it hands out. *)
From Coq Require Import NArith List String.
From Verif Require Import Words Mem SmallModel JenkinsModel.
Import ListNotations.
Open Scope N_scope.
Open Scope string_scope.

(** The values the interface nhash.HashF32 holds here (hashf.go:210, 212, 214, 216). *)
Inductive obj := OSbox (s : State) | OCrapWow (s : State) | O332c (d : st332) | O232 (d : st232).
(** Halloc, hashf.go:207-219; [None] is nil. *)
Definition Halloc (hfs : string) : option obj :=
  if hfs =? "sbox" then Some (OSbox (New 0))
  else if hfs =? "CrapWow" then Some (OCrapWow (New 0))
  else if hfs =? "j332c" then Some (O332c (new332 0))
  else if hfs =? "j232" then Some (O232 (new232 0))
  else None.
(** Hash32 through the interface: sbox.go:87-93, crapwow.go:104-110, jenkins.go:946-964 and
    1110-1117. *)
Definition Hash32 (o : obj) (b seeds : list N) : res (obj * N) :=
  match o with
  | OSbox s => '(s, h) <~ sbox_Hash32 s b seeds ;; Ok (OSbox s, h)
  | OCrapWow s => '(s, h) <~ crapwow_Hash32 s b seeds ;; Ok (OCrapWow s, h)
  | O332c d => '(d, h) <~ hash32_332 d b seeds ;; Ok (O332c d, h)
  | O232 d => '(d, h) <~ hash32_232 d b seeds ;; Ok (O232 d, h)
  end.
(** A client's calls, one after the other: keys and seeds (no code; Halloc is not called in
    the repository, the call at ht.go:676 is commented out). *)
Fixpoint calls (o : obj) (cs : list (list N * list N)) : res (list N) :=
  match cs with
  | [] => Ok []
  | (b, seeds) :: r => '(o, h) <~ Hash32 o b seeds ;; hs <~ calls o r ;; Ok (h :: hs)
  end.
(** benchmarks, ht.go:670. *)
Definition benchmarks : list string := ["j332c"; "j232"; "sbox"; "CrapWow"].

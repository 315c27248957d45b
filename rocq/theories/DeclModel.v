(** Model of what the objects of the nhash interfaces declare about themselves (Size,
    BlockSize, NumSeedBytes, HashSizeInBits), beside the hash and Sum methods of the same
    objects, which SmallModel.v and JenkinsModel.v model. *)
From Coq Require Import NArith List.
From Verif Require Import Words Mem SmallModel JenkinsModel.
Import ListNotations.
Open Scope N_scope.

(** The objects: sbox.New (sbox/sbox.go:62-66), crapwow.New (crapwow/crapwow.go:79-83),
    jenkins.New332c, New364 and New232 (jenkins/jenkins.go:882-887, 969-974, 1059-1064),
    nullhash.NewF64 (nullhash/nullhash.go:62-65). *)
Inductive kind := KSbox | KCrapWow | K332c | K364 | K232 | KNull.
(** Their states (sbox.go:56-59, crapwow.go:73-76, jenkins.go:832-862, nullhash.go:12-14). *)
Definition state (k : kind) : Type :=
  match k with KSbox | KCrapWow => State | K332c => st332 | K364 => st364 | K232 => st232 | KNull => N end.
(** A new object; the lines of [kind].  nullhash.NewF64 takes no seed. *)
Definition new (k : kind) (seed : N) : state k :=
  match k with KSbox => New seed | KCrapWow => New seed | K332c => new332 seed | K364 => new364 seed | K232 => new232 seed | KNull => null_New end.
(** Hash32 or Hash64: sbox.go:87-93, crapwow.go:104-110, jenkins.go:946-964, 1029-1044,
    1110-1117, nullhash.go:47-50; [seeds] is the variadic argument. *)
Definition hash (k : kind) : state k -> list N -> list N -> res (state k * N) :=
  match k with
  | KSbox => sbox_Hash32 | KCrapWow => crapwow_Hash32 | K332c => hash32_332 | K364 => hash64_364 | K232 => hash32_232
  | KNull => fun c b seeds => Ok (null_Hash64 c b seeds)
  end.
(** Sum of those that have it: jenkins.go:931-936, 1009-1014, 1098-1102, nullhash.go:32-37.
    (sbox and crapwow have no Sum.) *)
Definition sum (k : kind) : option (state k -> list N -> res (state k * list N)) :=
  match k with
  | KSbox | KCrapWow => None
  | K332c => Some sum_332 | K364 => Some sum_364 | K232 => Some sum_232
  | KNull => Some (fun c b => Ok (null_Sum c b))
  end.
(** Size, sbox.go:69-72, crapwow.go:86-89, jenkins.go:899, 977, 1067, nullhash.go:16-18. *)
Definition Size (k : kind) : N := match k with KSbox => 4 | KCrapWow => 4 | K332c => 4 | K364 => 8 | K232 => 4 | KNull => 8 end.
(** BlockSize, sbox.go:75, crapwow.go:92, jenkins.go:902, 980, 1070, nullhash.go:20-22. *)
Definition BlockSize (k : kind) : N := match k with KSbox => 2 | KCrapWow => 8 | K332c => 1 | K364 => 1 | K232 => 12 | KNull => 8 end.
(** NumSeedBytes, sbox.go:78-80, crapwow.go:95-97, jenkins.go:905-907, 983-985, 1073-1075,
    nullhash.go:24-26. *)
Definition NumSeedBytes (k : kind) : N := match k with KSbox => 4 | KCrapWow => 4 | K332c => 8 | K364 => 8 | K232 => 4 | KNull => 8 end.
(** HashSizeInBits, sbox.go:83-85, crapwow.go:100-102, jenkins.go:910-912, 988-990,
    1078-1080; nullhash has none. *)
Definition HashSizeInBits (k : kind) : option N :=
  match k with KSbox => Some 32 | KCrapWow => Some 32 | K332c => Some 32 | K364 => Some 64 | K232 => Some 32 | KNull => None end.
(** The width of one seed argument: Hash32 takes uint32 seeds, Hash64 uint64 (the same
    lines as [hash]). *)
Definition seed_width (k : kind) : N := match k with KSbox | KCrapWow | K332c | K232 => 32 | K364 | KNull => 64 end.

(** The vectors of farm/farm_test.go (golden32, golden64, TestFingerprint128),
    evaluated on the model; they guard the transcription. *)
From Coq Require Import NArith ZArith List String Ascii.
From Verif Require Import Words Mem FarmModel.
Import ListNotations.
Open Scope N_scope.
Open Scope bool_scope.

Definition bytes_of (s : string) : list N := map N_of_ascii (list_ascii_of_string s).
Definition check1 (f : list N -> res N) (p : string * N) : bool :=
  match f (bytes_of (fst p)) with Ok x => x =? snd p | _ => false end.
Definition check2 (p : string * (N * N)) : bool :=
  match farm_hash128 (bytes_of (fst p)) with Ok (lo, hi) => (hi =? fst (snd p)) && (lo =? snd (snd p)) | _ => false end.

Example farm32_vectors : forallb (check1 farm_hash32) [
  ("a"%string, 0x3c973d4d);
  ("ab"%string, 0x417330fd);
  ("abc"%string, 0x2f635ec7);
  ("abcd"%string, 0x98b51e95);
  ("abcde"%string, 0xa3f366ac);
  ("abcdef"%string, 0x0f813aa4);
  ("abcdefg"%string, 0x21deb6d7);
  ("abcdefgh"%string, 0xfd7ec8b9);
  ("abcdefghi"%string, 0x6f98dc86);
  ("abcdefghij"%string, 0xf2669361);
  ("Discard medicine more than two years old."%string, 0xe273108f);
  ("He who has a shady past knows that nice guys finish last."%string, 0xf585dfc4);
  ("I wouldn't marry him with a ten foot pole."%string, 0x363394d1);
  ("Free! Free!/A trip/to Mars/for 900/empty jars/Burma Shave"%string, 0x7613810f);
  ("The days of the digital watch are numbered.  -Tom Stoppard"%string, 0x2cc30bb7);
  ("Nepal premier won't resign."%string, 0x322984d9);
  ("For every action there is an equal and opposite government program."%string, 0xa5812ac8);
  ("His money is twice tainted: 'taint yours and 'taint mine."%string, 0x1090d244);
  ("There is no reason for any individual to have a computer in their home. -Ken Olsen, 1977"%string, 0xff16c9e6);
  ("It's a tiny change to the code and not completely disgusting. - Bob Manchek"%string, 0xcc3d0ff2);
  ("size:  a.out:  bad magic"%string, 0xc6246b8d);
  ("The major problem is with sendmail.  -Mark Horton"%string, 0xd225e92e);
  ("Give me a rock, paper and scissors and I will move the world.  CCFestoon"%string, 0x1b8db5d0);
  ("If the enemy is within range, then so are you."%string, 0x4fda5f07);
  ("It's well we cannot hear the screams/That we create in others' dreams."%string, 0x2e18e880);
  ("You remind me of a TV show, but that's all right: I watch it anyway."%string, 0xd07de88f);
  ("C is as portable as Stonehedge!!"%string, 0x221694e4);
  ("Even if I could be Shakespeare, I think I should still choose to be Faraday. - A. Huxley"%string, 0xe2053c2c);
  ("The fugacity of a constituent in a mixture of gases at a given temperature is proportional to its mole fraction.  Lewis-Randall Rule"%string, 0x11c493bb);
  ("How can you write a big system without C++?  -Paul Glick"%string, 0x0819a4e8)
] = true.
Proof. vm_compute. reflexivity. Qed.

Example farm64_vectors : forallb (check1 farm_hash64) [
  ("a"%string, 0xb3454265b6df75e3);
  ("ab"%string, 0xaa8d6e5242ada51e);
  ("abc"%string, 0x24a5b3a074e7f369);
  ("abcd"%string, 0x1a5502de4a1f8101);
  ("abcde"%string, 0xc22f4663e54e04d4);
  ("abcdef"%string, 0xc329379e6a03c2cd);
  ("abcdefg"%string, 0x3c40c92b1ccb7355);
  ("abcdefgh"%string, 0xfee9d22990c82909);
  ("abcdefghi"%string, 0x332c8ed4dae5ba42);
  ("abcdefghij"%string, 0x8a3abb6a5f3fb7fb);
  ("Discard medicine more than two years old."%string, 0xe8f89ab6df9bdd25);
  ("He who has a shady past knows that nice guys finish last."%string, 0x786d7e1987023ca9);
  ("I wouldn't marry him with a ten foot pole."%string, 0xa9961670ce2a46d9);
  ("Free! Free!/A trip/to Mars/for 900/empty jars/Burma Shave"%string, 0x5d14f96c18fe3d5e);
  ("The days of the digital watch are numbered.  -Tom Stoppard"%string, 0x2a578b80bb82147c);
  ("Nepal premier won't resign."%string, 0x8eb3808d1ccfc779);
  ("For every action there is an equal and opposite government program."%string, 0xb8d104d1135bbc60);
  ("His money is twice tainted: 'taint yours and 'taint mine."%string, 0xec8848fd3b266c10);
  ("There is no reason for any individual to have a computer in their home. -Ken Olsen, 1977"%string, 0xfe6aa49558b3cbe0);
  ("It's a tiny change to the code and not completely disgusting. - Bob Manchek"%string, 0xa104da6f2f575514);
  ("size:  a.out:  bad magic"%string, 0x80d73b843ba57db8);
  ("The major problem is with sendmail.  -Mark Horton"%string, 0xc2f8db8624fefc0e);
  ("Give me a rock, paper and scissors and I will move the world.  CCFestoon"%string, 0xa58e3702193e4631);
  ("If the enemy is within range, then so are you."%string, 0xbdd69b798d6ba37a);
  ("It's well we cannot hear the screams/That we create in others' dreams."%string, 0x61751a90ec7d71bf);
  ("You remind me of a TV show, but that's all right: I watch it anyway."%string, 0x836f5ff0c2a7dfaa);
  ("C is as portable as Stonehedge!!"%string, 0xb944f8a16261e414);
  ("Even if I could be Shakespeare, I think I should still choose to be Faraday. - A. Huxley"%string, 0x96d012f9bccb3e);
  ("The fugacity of a constituent in a mixture of gases at a given temperature is proportional to its mole fraction.  Lewis-Randall Rule"%string, 0x8fe4429d157f60f5);
  ("How can you write a big system without C++?  -Paul Glick"%string, 0x5a0a6efd52e84e2a)
] = true.
Proof. vm_compute. reflexivity. Qed.

Example farm128_vectors : forallb check2 [
  ("abcdef"%string, (9054869399155703984, 8033370924408288235));
  ("There is no reason for any individual to have a computer in their home. -Ken Olsen, 1977"%string, (352412539875473798, 3547689611939963773));
  ("The fugacity of a constituent in a mixture of gases at a given temperature is proportional to its mole fraction.  Lewis-Randall RuleAAAAAAAAAAAAAAAA"%string, (14320160249354795919, 10805939018293574989))
] = true.
Proof. vm_compute. reflexivity. Qed.


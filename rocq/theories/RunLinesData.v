(** Pairs of keys of the tests of /repo/smhasher/smhasher.go that collide under
    hash functions of package hashf.  For each name the pairs are in the order
    Text (3 sets), Sparse (8), Permutation (5), SmallKeys, TwoNonzero. *)
From Coq Require Import NArith List String.
Import ListNotations.
Open Scope N_scope.
Open Scope list_scope.

Definition line_pairs : list (string * list (option (list N * list N))) := [
  ("murmur332"%string, [
    Some ([70; 111; 111; 114; 79; 103; 70; 66; 97; 114], [70; 111; 111; 51; 72; 83; 48; 66; 97; 114]);
    Some ([70; 111; 111; 66; 97; 114; 106; 66; 68; 111], [70; 111; 111; 66; 97; 114; 71; 110; 99; 106]);
    None;
    None;
    Some ([0; 2; 136; 1; 80], [2; 64; 11; 0; 64]);
    Some ([8; 0; 65; 1; 1; 0], [128; 2; 0; 0; 146; 0]);
    Some ([16; 72; 0; 1; 2; 0; 0], [0; 44; 129; 0; 0; 0; 0]);
    Some ([0; 0; 1; 0; 1; 64; 4; 0], [0; 0; 64; 64; 0; 9; 4; 0]);
    Some ([0; 0; 0; 32; 8; 0; 0; 32; 0; 64; 0; 0], [0; 0; 0; 0; 0; 0; 65; 48; 0; 0; 0; 0]);
    Some ([0; 0; 0; 0; 0; 0; 0; 0; 0; 0; 0; 0; 0; 16; 0; 0; 2; 0; 0; 0; 0; 0; 0; 0; 0; 0; 0; 0; 0; 4; 0; 0], [0; 0; 0; 0; 0; 0; 4; 0; 0; 0; 0; 0; 0; 0; 0; 0; 0; 0; 4; 0; 0; 0; 0; 0; 16; 0; 0; 0; 0; 0; 0; 0]);
    Some ([0; 0; 0; 0; 0; 0; 0; 0; 0; 0; 0; 0; 0; 0; 0; 0; 0; 0; 0; 0; 0; 0; 0; 0; 0; 0; 0; 0; 0; 0; 0; 0; 0; 0; 0; 0; 0; 0; 0; 0; 0; 0; 0; 0; 0; 0; 0; 0; 0; 0; 0; 0; 0; 0; 0; 0; 0; 0; 0; 0; 0; 0; 0; 128; 0; 0; 0; 0; 0; 0; 0; 0; 0; 0; 0; 0; 0; 0; 0; 0; 0; 0; 0; 0; 0; 0; 0; 0; 0; 0; 0; 0; 0; 0; 0; 0; 0; 0; 0; 0; 0; 0; 0; 0; 0; 0; 0; 0; 0; 0; 0; 0; 0; 0; 0; 0; 0; 0; 0; 0; 0; 0; 0; 0; 0; 0; 0; 0; 0; 0; 0; 0; 0; 0; 0; 0; 1; 0; 0; 0; 0; 0; 0; 0; 0; 0; 0; 0; 0; 0; 0; 0; 0; 0; 0; 0; 0; 0; 0; 0; 0; 0; 0; 0; 0; 0; 0; 0; 0; 0; 0; 0; 0; 0; 0; 0; 0; 0; 0; 0; 0; 0; 0; 0; 0; 0; 0; 0; 0; 0; 0; 0; 0; 0; 0; 0; 0; 0; 0; 0; 0; 0; 0; 0; 0; 0; 0; 0; 0; 0; 0; 0; 0; 0; 0; 0; 0; 0; 0; 0; 0; 0; 0; 0; 0; 0; 0; 0; 0; 0; 0; 0; 0; 0; 0; 0; 0; 0; 0; 0; 0; 0; 0; 0; 0; 0; 0; 0; 0; 0; 0; 0; 0; 0; 0; 0], [0; 0; 0; 0; 0; 0; 0; 0; 0; 0; 0; 0; 0; 0; 0; 0; 0; 0; 0; 0; 0; 0; 0; 0; 0; 0; 0; 0; 0; 0; 0; 0; 0; 0; 0; 0; 0; 0; 0; 0; 0; 0; 0; 0; 0; 0; 0; 0; 0; 0; 0; 0; 0; 0; 0; 0; 0; 0; 0; 0; 0; 0; 0; 0; 0; 0; 0; 0; 0; 0; 0; 0; 0; 0; 0; 0; 0; 0; 0; 0; 0; 0; 0; 0; 0; 0; 0; 0; 0; 0; 0; 0; 0; 0; 0; 64; 0; 0; 0; 0; 0; 0; 0; 0; 0; 0; 0; 0; 0; 0; 0; 0; 0; 0; 0; 0; 0; 0; 0; 0; 0; 0; 0; 0; 0; 0; 0; 0; 0; 0; 0; 0; 0; 0; 0; 0; 0; 0; 0; 0; 0; 0; 0; 0; 0; 0; 0; 0; 0; 0; 0; 0; 0; 0; 0; 0; 0; 0; 0; 0; 0; 0; 128; 0; 0; 0; 0; 0; 0; 0; 0; 0; 0; 0; 0; 0; 0; 0; 0; 0; 0; 0; 0; 0; 0; 0; 0; 0; 0; 0; 0; 0; 0; 0; 0; 0; 0; 0; 0; 0; 0; 0; 0; 0; 0; 0; 0; 0; 0; 0; 0; 0; 0; 0; 0; 0; 0; 0; 0; 0; 0; 0; 0; 0; 0; 0; 0; 0; 0; 0; 0; 0; 0; 0; 0; 0; 0; 0; 0; 0; 0; 0; 0; 0; 0; 0; 0; 0; 0; 0; 0; 0; 0; 0; 0; 0]);
    Some ([0; 0; 0; 0; 0; 0; 0; 0; 3; 0; 0; 0; 1; 0; 0; 0; 0; 0; 0; 0; 3; 0; 0; 0; 4; 0; 0; 0; 2; 0; 0; 0], [2; 0; 0; 0; 1; 0; 0; 0; 2; 0; 0; 0; 3; 0; 0; 0; 3; 0; 0; 0; 2; 0; 0; 0; 0; 0; 0; 0; 3; 0; 0; 0]);
    Some ([0; 0; 0; 64; 0; 0; 0; 160; 0; 0; 0; 160; 0; 0; 0; 128; 0; 0; 0; 64; 0; 0; 0; 128; 0; 0; 0; 64; 0; 0; 0; 32], [0; 0; 0; 128; 0; 0; 0; 32; 0; 0; 0; 32; 0; 0; 0; 0; 0; 0; 0; 160; 0; 0; 0; 192; 0; 0; 0; 96]);
    Some ([1; 0; 0; 0; 0; 0; 0; 0; 1; 0; 0; 0; 1; 0; 0; 0; 0; 0; 0; 0; 1; 0; 0; 0; 0; 0; 0; 0; 1; 0; 0; 0; 1; 0; 0; 0; 0; 0; 0; 0; 0; 0; 0; 0; 1; 0; 0; 0; 1; 0; 0; 0; 1; 0; 0; 0; 1; 0; 0; 0; 0; 0; 0; 0; 0; 0; 0; 0; 1; 0; 0; 0; 0; 0; 0; 0; 0; 0; 0; 0], [0; 0; 0; 0; 1; 0; 0; 0; 0; 0; 0; 0; 0; 0; 0; 0; 1; 0; 0; 0; 1; 0; 0; 0; 0; 0; 0; 0; 0; 0; 0; 0; 1; 0; 0; 0; 1; 0; 0; 0; 1; 0; 0; 0; 0; 0; 0; 0; 0; 0; 0; 0; 1; 0; 0; 0; 1; 0; 0; 0; 0; 0; 0; 0; 1; 0; 0; 0; 1; 0; 0; 0; 0; 0; 0; 0; 1; 0; 0; 0]);
    Some ([0; 0; 0; 0; 0; 0; 0; 128; 0; 0; 0; 0; 0; 0; 0; 0; 0; 0; 0; 128; 0; 0; 0; 0; 0; 0; 0; 0; 0; 0; 0; 0; 0; 0; 0; 128; 0; 0; 0; 128; 0; 0; 0; 0; 0; 0; 0; 128; 0; 0; 0; 128; 0; 0; 0; 128; 0; 0; 0; 128; 0; 0; 0; 128; 0; 0; 0; 128; 0; 0; 0; 128; 0; 0; 0; 0; 0; 0; 0; 0], [0; 0; 0; 0; 0; 0; 0; 128; 0; 0; 0; 0; 0; 0; 0; 0; 0; 0; 0; 128; 0; 0; 0; 0; 0; 0; 0; 128; 0; 0; 0; 0; 0; 0; 0; 0; 0; 0; 0; 0; 0; 0; 0; 128; 0; 0; 0; 0; 0; 0; 0; 128; 0; 0; 0; 0; 0; 0; 0; 128; 0; 0; 0; 0; 0; 0; 0; 0; 0; 0; 0; 0; 0; 0; 0; 0; 0; 0; 0; 0]);
    Some ([5; 0; 0; 0; 0; 0; 0; 64; 3; 0; 0; 0; 1; 0; 0; 0; 0; 0; 0; 64; 0; 0; 0; 32], [0; 0; 0; 128; 0; 0; 0; 128; 3; 0; 0; 0; 6; 0; 0; 0; 3; 0; 0; 0; 0; 0; 0; 64]);
    None;
    Some ([0; 0; 0; 0; 0; 127; 0; 0; 0; 0; 0; 125], [65; 0; 0; 0; 11; 0])]);
  ("j332c"%string, [
    Some ([70; 111; 111; 110; 102; 105; 105; 66; 97; 114], [70; 111; 111; 115; 111; 83; 50; 66; 97; 114]);
    Some ([70; 111; 111; 66; 97; 114; 49; 53; 101; 83], [70; 111; 111; 66; 97; 114; 115; 76; 101; 53]);
    Some ([107; 109; 82; 78; 70; 111; 111; 66; 97; 114], [105; 99; 103; 49; 70; 111; 111; 66; 97; 114]);
    Some ([16; 0; 38; 40], [64; 42; 64; 32]);
    Some ([0; 40; 80; 1; 1], [0; 132; 32; 64; 128]);
    Some ([16; 0; 1; 0; 0; 34], [72; 0; 8; 8; 16; 0]);
    Some ([32; 2; 0; 40; 0; 0; 8], [0; 34; 2; 0; 0; 64; 16]);
    Some ([0; 0; 0; 32; 128; 4; 4; 0], [0; 0; 6; 0; 2; 68; 0; 0]);
    Some ([32; 0; 24; 0; 0; 0; 0; 0; 0; 0; 8; 0], [19; 0; 0; 0; 0; 2; 0; 0; 0; 0; 0; 0]);
    Some ([0; 0; 0; 0; 1; 0; 0; 0; 0; 0; 0; 0; 0; 0; 0; 0; 4; 0; 0; 0; 0; 0; 0; 2; 0; 0; 0; 0; 0; 0; 0; 0], [0; 0; 0; 0; 0; 4; 0; 0; 0; 0; 0; 0; 0; 128; 0; 0; 0; 0; 0; 0; 0; 0; 64; 0; 0; 0; 0; 0; 0; 0; 0; 0]);
    Some ([0; 0; 0; 0; 0; 0; 0; 0; 0; 0; 0; 0; 0; 0; 0; 0; 0; 0; 0; 0; 0; 0; 0; 0; 0; 0; 0; 0; 0; 0; 0; 0; 0; 0; 0; 0; 0; 0; 0; 0; 0; 8; 0; 0; 0; 0; 0; 0; 0; 0; 0; 0; 0; 0; 0; 0; 0; 0; 0; 0; 0; 0; 0; 0; 0; 0; 0; 0; 0; 0; 0; 0; 0; 0; 0; 0; 0; 0; 0; 0; 0; 0; 0; 0; 0; 0; 0; 0; 0; 0; 0; 0; 0; 0; 0; 0; 0; 0; 0; 0; 0; 0; 0; 0; 0; 0; 0; 0; 0; 0; 0; 0; 0; 0; 0; 0; 0; 0; 0; 0; 0; 0; 0; 16; 0; 0; 0; 0; 0; 0; 0; 0; 0; 0; 0; 0; 0; 0; 0; 0; 0; 0; 0; 0; 0; 0; 0; 0; 0; 0; 0; 0; 0; 0; 0; 0; 0; 0; 0; 0; 0; 0; 0; 0; 0; 0; 0; 0; 0; 0; 0; 0; 0; 0; 0; 0; 0; 0; 0; 0; 0; 0; 0; 0; 0; 0; 0; 0; 0; 0; 0; 0; 0; 0; 0; 0; 0; 0; 0; 0; 0; 0; 0; 0; 0; 0; 0; 0; 0; 0; 0; 0; 0; 0; 0; 0; 0; 0; 0; 0; 0; 0; 0; 0; 0; 0; 0; 0; 0; 0; 0; 0; 0; 0; 0; 0; 0; 0; 0; 0; 0; 0; 0; 0; 0; 0; 0; 0; 0; 0; 0; 0; 0; 0; 0; 0], [0; 0; 0; 0; 0; 0; 0; 0; 0; 0; 0; 0; 0; 0; 0; 0; 0; 0; 0; 0; 0; 0; 0; 0; 0; 0; 0; 0; 0; 0; 0; 0; 0; 0; 0; 0; 0; 0; 0; 0; 0; 0; 0; 0; 0; 0; 0; 0; 0; 0; 0; 0; 0; 0; 0; 0; 0; 0; 0; 0; 0; 0; 0; 0; 0; 0; 0; 0; 0; 0; 0; 0; 0; 0; 0; 0; 0; 0; 0; 0; 0; 0; 1; 0; 0; 0; 0; 0; 0; 0; 0; 0; 0; 0; 0; 0; 0; 0; 0; 0; 0; 0; 0; 0; 0; 0; 0; 0; 0; 0; 0; 0; 0; 0; 0; 0; 0; 0; 0; 0; 0; 0; 0; 0; 0; 0; 128; 0; 0; 0; 0; 0; 0; 0; 0; 0; 0; 0; 0; 0; 0; 0; 0; 0; 0; 0; 0; 0; 0; 0; 0; 0; 0; 0; 0; 0; 0; 0; 0; 0; 0; 0; 0; 0; 0; 0; 0; 0; 0; 0; 0; 0; 0; 0; 0; 0; 0; 0; 0; 0; 0; 0; 0; 0; 0; 0; 0; 0; 0; 0; 0; 0; 0; 0; 0; 0; 0; 0; 0; 0; 0; 0; 0; 0; 0; 0; 0; 0; 0; 0; 0; 0; 0; 0; 0; 0; 0; 0; 0; 0; 0; 0; 0; 0; 0; 0; 0; 0; 0; 0; 0; 0; 0; 0; 0; 0; 0; 0; 0; 0; 0; 0; 0; 0; 0; 0; 0; 0; 0; 0; 0; 0; 0; 0; 0; 0]);
    Some ([7; 0; 0; 0; 7; 0; 0; 0; 7; 0; 0; 0; 5; 0; 0; 0], [3; 0; 0; 0; 3; 0; 0; 0; 3; 0; 0; 0; 5; 0; 0; 0; 0; 0; 0; 0]);
    Some ([0; 0; 0; 0; 0; 0; 0; 0; 0; 0; 0; 160; 0; 0; 0; 32; 0; 0; 0; 64; 0; 0; 0; 192; 0; 0; 0; 96; 0; 0; 0; 96], [0; 0; 0; 128; 0; 0; 0; 192; 0; 0; 0; 128; 0; 0; 0; 224; 0; 0; 0; 128; 0; 0; 0; 64; 0; 0; 0; 0; 0; 0; 0; 96]);
    Some ([1; 0; 0; 0; 1; 0; 0; 0; 0; 0; 0; 0; 1; 0; 0; 0; 0; 0; 0; 0; 0; 0; 0; 0; 0; 0; 0; 0; 0; 0; 0; 0; 0; 0; 0; 0; 1; 0; 0; 0; 1; 0; 0; 0; 1; 0; 0; 0; 1; 0; 0; 0; 1; 0; 0; 0; 1; 0; 0; 0; 1; 0; 0; 0; 0; 0; 0; 0; 1; 0; 0; 0; 0; 0; 0; 0; 0; 0; 0; 0], [0; 0; 0; 0; 0; 0; 0; 0; 1; 0; 0; 0; 1; 0; 0; 0; 0; 0; 0; 0; 1; 0; 0; 0; 0; 0; 0; 0; 0; 0; 0; 0; 1; 0; 0; 0; 0; 0; 0; 0; 1; 0; 0; 0; 0; 0; 0; 0; 0; 0; 0; 0; 0; 0; 0; 0; 0; 0; 0; 0; 0; 0; 0; 0; 1; 0; 0; 0; 1; 0; 0; 0; 0; 0; 0; 0; 0; 0; 0; 0]);
    Some ([0; 0; 0; 0; 0; 0; 0; 128; 0; 0; 0; 0; 0; 0; 0; 0; 0; 0; 0; 128; 0; 0; 0; 128; 0; 0; 0; 128; 0; 0; 0; 0; 0; 0; 0; 128; 0; 0; 0; 0; 0; 0; 0; 128; 0; 0; 0; 128; 0; 0; 0; 0; 0; 0; 0; 0; 0; 0; 0; 128; 0; 0; 0; 128; 0; 0; 0; 128; 0; 0; 0; 128; 0; 0; 0; 0; 0; 0; 0; 128], [0; 0; 0; 128; 0; 0; 0; 128; 0; 0; 0; 128; 0; 0; 0; 128; 0; 0; 0; 128; 0; 0; 0; 128; 0; 0; 0; 128; 0; 0; 0; 0; 0; 0; 0; 128; 0; 0; 0; 0; 0; 0; 0; 128; 0; 0; 0; 128; 0; 0; 0; 128; 0; 0; 0; 0; 0; 0; 0; 0; 0; 0; 0; 128; 0; 0; 0; 128; 0; 0; 0; 128; 0; 0; 0; 128; 0; 0; 0; 128]);
    Some ([0; 0; 0; 128; 0; 0; 0; 64; 0; 0; 0; 0; 0; 0; 0; 0; 7; 0; 0; 0; 0; 0; 0; 128], [7; 0; 0; 0; 0; 0; 0; 64; 0; 0; 0; 64; 1; 0; 0; 0; 4; 0; 0; 0; 0; 0; 0; 160]);
    Some ([129; 65; 138], [55; 120; 163]);
    Some ([0; 0; 0; 0; 0; 0; 0; 0; 184; 0; 0], [0; 0; 0; 0; 78; 0; 0; 0; 0; 0; 0; 0; 0; 0; 98])]);
  ("j332b"%string, [
    Some ([70; 111; 111; 78; 78; 52; 69; 66; 97; 114], [70; 111; 111; 103; 65; 57; 72; 66; 97; 114]);
    Some ([70; 111; 111; 66; 97; 114; 111; 67; 81; 51], [70; 111; 111; 66; 97; 114; 79; 109; 97; 114]);
    Some ([97; 107; 110; 69; 70; 111; 111; 66; 97; 114], [83; 75; 49; 67; 70; 111; 111; 66; 97; 114]);
    Some ([32; 1; 128; 193], [2; 129; 1; 1]);
    Some ([0; 38; 128; 0; 128], [36; 12; 0; 32; 64]);
    Some ([3; 0; 0; 2; 0; 20], [32; 16; 0; 0; 64; 34]);
    Some ([5; 0; 4; 1; 0; 0; 16], [2; 8; 1; 4; 0; 1; 0]);
    Some ([0; 16; 1; 42; 0; 0; 0; 0], [64; 0; 0; 16; 0; 8; 130; 0]);
    Some ([0; 0; 65; 0; 0; 64; 0; 0; 0; 0; 0; 4], [0; 0; 0; 0; 0; 32; 0; 0; 0; 16; 96; 0]);
    Some ([0; 0; 32; 0; 0; 0; 1; 0; 0; 0; 0; 0; 0; 0; 0; 0; 0; 0; 0; 0; 0; 0; 0; 0; 0; 0; 0; 0; 0; 0; 8; 0], [0; 0; 8; 0; 0; 0; 0; 0; 0; 16; 0; 0; 0; 64; 0; 0; 0; 0; 0; 0; 0; 0; 0; 0; 0; 0; 0; 0; 0; 0; 0; 0]);
    Some ([0; 0; 0; 0; 0; 0; 0; 0; 0; 0; 0; 0; 0; 0; 0; 0; 0; 0; 0; 0; 0; 0; 0; 0; 0; 0; 0; 0; 0; 0; 0; 0; 0; 0; 0; 0; 0; 0; 0; 0; 0; 0; 0; 0; 0; 0; 0; 0; 0; 0; 0; 0; 0; 0; 0; 0; 0; 0; 0; 0; 0; 0; 0; 0; 0; 0; 0; 0; 0; 0; 0; 0; 0; 0; 0; 0; 0; 0; 0; 1; 0; 0; 0; 0; 0; 0; 0; 0; 0; 0; 0; 0; 0; 0; 0; 0; 0; 0; 0; 0; 0; 0; 0; 0; 0; 0; 0; 0; 0; 0; 0; 0; 0; 0; 0; 0; 0; 0; 0; 0; 0; 0; 0; 0; 0; 0; 0; 0; 0; 0; 0; 0; 0; 0; 0; 0; 0; 0; 0; 0; 0; 0; 0; 0; 0; 0; 0; 0; 0; 0; 0; 0; 0; 128; 0; 0; 0; 0; 0; 0; 0; 0; 0; 0; 0; 0; 0; 0; 0; 0; 0; 0; 0; 0; 0; 0; 0; 0; 0; 0; 0; 0; 0; 0; 0; 0; 0; 0; 0; 0; 0; 0; 0; 0; 0; 0; 0; 0; 0; 0; 0; 0; 0; 0; 0; 0; 0; 0; 0; 0; 0; 0; 0; 0; 0; 0; 0; 0; 0; 0; 0; 0; 0; 0; 0; 0; 0; 0; 0; 0; 0; 0; 0; 0; 0; 0; 0; 0; 0; 0; 0; 0; 0; 0; 0; 0; 0; 0; 0; 0; 0; 0; 0; 0; 0; 0], [0; 0; 0; 0; 0; 0; 0; 0; 0; 0; 0; 0; 0; 0; 0; 0; 0; 0; 0; 0; 0; 0; 0; 0; 0; 0; 0; 0; 0; 0; 0; 0; 0; 0; 0; 0; 0; 0; 0; 0; 0; 0; 0; 0; 0; 0; 0; 0; 0; 0; 0; 0; 0; 0; 0; 0; 0; 0; 0; 0; 0; 0; 0; 0; 0; 0; 0; 0; 0; 0; 0; 0; 0; 0; 0; 0; 0; 0; 0; 0; 0; 0; 0; 0; 0; 0; 0; 0; 0; 0; 0; 0; 0; 0; 0; 0; 0; 0; 0; 0; 0; 0; 0; 0; 0; 16; 0; 0; 0; 0; 0; 0; 0; 0; 0; 0; 0; 0; 0; 0; 0; 128; 0; 0; 0; 0; 0; 0; 0; 0; 0; 0; 0; 0; 0; 0; 0; 0; 0; 0; 0; 0; 0; 0; 0; 0; 0; 0; 0; 0; 0; 0; 0; 0; 0; 0; 0; 0; 0; 0; 0; 0; 0; 0; 0; 0; 0; 0; 0; 0; 0; 0; 0; 0; 0; 0; 0; 0; 0; 0; 0; 0; 0; 0; 0; 0; 0; 0; 0; 0; 0; 0; 0; 0; 0; 0; 0; 0; 0; 0; 0; 0; 0; 0; 0; 0; 0; 0; 0; 0; 0; 0; 0; 0; 0; 0; 0; 0; 0; 0; 0; 0; 0; 0; 0; 0; 0; 0; 0; 0; 0; 0; 0; 0; 0; 0; 0; 0; 0; 0; 0; 0; 0; 0; 0; 0; 0; 0; 0; 0; 0; 0; 0; 0; 0; 0]);
    Some ([7; 0; 0; 0; 7; 0; 0; 0; 7; 0; 0; 0; 5; 0; 0; 0], [3; 0; 0; 0; 3; 0; 0; 0; 3; 0; 0; 0; 5; 0; 0; 0; 0; 0; 0; 0]);
    Some ([0; 0; 0; 0; 0; 0; 0; 192; 0; 0; 0; 192; 0; 0; 0; 160; 0; 0; 0; 96; 0; 0; 0; 32; 0; 0; 0; 192; 0; 0; 0; 0], [0; 0; 0; 160; 0; 0; 0; 160; 0; 0; 0; 160; 0; 0; 0; 128; 0; 0; 0; 64; 0; 0; 0; 32; 0; 0; 0; 64; 0; 0; 0; 160]);
    Some ([0; 0; 0; 0; 1; 0; 0; 0; 0; 0; 0; 0; 1; 0; 0; 0; 0; 0; 0; 0; 1; 0; 0; 0; 1; 0; 0; 0; 1; 0; 0; 0; 1; 0; 0; 0; 0; 0; 0; 0; 1; 0; 0; 0; 1; 0; 0; 0; 0; 0; 0; 0; 1; 0; 0; 0; 0; 0; 0; 0; 1; 0; 0; 0; 1; 0; 0; 0; 1; 0; 0; 0; 1; 0; 0; 0; 1; 0; 0; 0], [1; 0; 0; 0; 1; 0; 0; 0; 0; 0; 0; 0; 1; 0; 0; 0; 0; 0; 0; 0; 1; 0; 0; 0; 0; 0; 0; 0; 0; 0; 0; 0; 1; 0; 0; 0; 0; 0; 0; 0; 1; 0; 0; 0; 0; 0; 0; 0; 1; 0; 0; 0; 1; 0; 0; 0; 1; 0; 0; 0; 1; 0; 0; 0; 0; 0; 0; 0; 1; 0; 0; 0; 1; 0; 0; 0; 1; 0; 0; 0]);
    Some ([0; 0; 0; 0; 0; 0; 0; 0; 0; 0; 0; 128; 0; 0; 0; 0; 0; 0; 0; 0; 0; 0; 0; 128; 0; 0; 0; 0; 0; 0; 0; 0; 0; 0; 0; 0; 0; 0; 0; 128; 0; 0; 0; 0; 0; 0; 0; 0; 0; 0; 0; 128; 0; 0; 0; 0; 0; 0; 0; 128; 0; 0; 0; 128; 0; 0; 0; 128; 0; 0; 0; 128; 0; 0; 0; 0; 0; 0; 0; 128], [0; 0; 0; 128; 0; 0; 0; 128; 0; 0; 0; 128; 0; 0; 0; 0; 0; 0; 0; 0; 0; 0; 0; 0; 0; 0; 0; 0; 0; 0; 0; 0; 0; 0; 0; 128; 0; 0; 0; 0; 0; 0; 0; 0; 0; 0; 0; 0; 0; 0; 0; 0; 0; 0; 0; 0; 0; 0; 0; 0; 0; 0; 0; 128; 0; 0; 0; 128; 0; 0; 0; 0; 0; 0; 0; 128; 0; 0; 0; 0]);
    Some ([0; 0; 0; 192; 0; 0; 0; 0; 0; 0; 0; 160; 3; 0; 0; 0; 7; 0; 0; 0; 0; 0; 0; 128], [0; 0; 0; 160; 4; 0; 0; 0; 6; 0; 0; 0; 0; 0; 0; 224; 2; 0; 0; 0; 7; 0; 0; 0]);
    Some ([9; 204; 66], [128; 226; 247]);
    Some ([164; 217; 0; 0; 0; 0; 0; 0; 0; 0; 0; 0; 0; 0; 0; 0], [0; 0; 0; 0; 0; 199; 0; 0; 18; 0; 0; 0; 0; 0; 0])]);
  ("j232"%string, [
    Some ([70; 111; 111; 111; 80; 105; 77; 66; 97; 114], [70; 111; 111; 55; 84; 110; 48; 66; 97; 114]);
    Some ([70; 111; 111; 66; 97; 114; 100; 98; 52; 116], [70; 111; 111; 66; 97; 114; 105; 51; 56; 111]);
    Some ([54; 82; 101; 66; 70; 111; 111; 66; 97; 114], [48; 112; 51; 77; 70; 111; 111; 66; 97; 114]);
    Some ([128; 128; 4; 48], [36; 32; 4; 136]);
    Some ([64; 9; 32; 32; 1], [0; 0; 196; 66; 0]);
    Some ([4; 34; 0; 1; 64; 0], [0; 136; 0; 0; 4; 96]);
    Some ([8; 1; 0; 34; 0; 0; 8], [0; 0; 34; 0; 32; 8; 2]);
    Some ([4; 0; 4; 4; 0; 16; 0; 0], [0; 17; 64; 0; 0; 2; 1; 0]);
    Some ([0; 0; 0; 0; 0; 64; 64; 16; 0; 0; 64; 0], [1; 0; 2; 0; 0; 0; 0; 0; 64; 2; 0; 0]);
    Some ([0; 0; 0; 1; 0; 0; 0; 0; 0; 16; 0; 0; 0; 0; 0; 0; 0; 0; 0; 0; 0; 0; 0; 0; 0; 32; 0; 0; 0; 0; 0; 0], [0; 0; 0; 0; 0; 0; 0; 4; 0; 0; 0; 0; 0; 0; 0; 0; 0; 0; 0; 0; 0; 0; 0; 0; 0; 0; 0; 0; 64; 0; 0; 0]);
    Some ([0; 0; 0; 0; 0; 0; 0; 0; 0; 0; 0; 0; 0; 0; 0; 0; 0; 0; 0; 0; 0; 0; 0; 0; 0; 0; 0; 0; 0; 0; 0; 0; 0; 0; 0; 0; 0; 0; 0; 0; 0; 0; 0; 0; 0; 0; 0; 0; 0; 0; 0; 0; 0; 0; 0; 0; 0; 0; 0; 0; 0; 0; 0; 0; 0; 0; 32; 0; 0; 0; 0; 0; 0; 0; 0; 0; 0; 0; 0; 0; 0; 0; 0; 0; 0; 0; 0; 0; 0; 0; 0; 0; 0; 0; 0; 0; 0; 0; 0; 0; 0; 0; 0; 0; 0; 0; 0; 0; 0; 0; 0; 0; 0; 0; 0; 0; 0; 0; 0; 0; 0; 0; 0; 0; 0; 0; 0; 0; 0; 0; 0; 0; 0; 0; 0; 0; 0; 0; 0; 0; 0; 0; 0; 0; 0; 0; 0; 0; 0; 0; 0; 0; 0; 0; 0; 0; 0; 0; 0; 0; 0; 0; 0; 0; 0; 0; 0; 0; 0; 0; 0; 0; 0; 0; 0; 0; 0; 0; 0; 0; 0; 0; 0; 0; 0; 0; 0; 0; 0; 0; 0; 0; 0; 0; 0; 0; 0; 0; 0; 0; 0; 0; 0; 0; 0; 0; 0; 0; 0; 0; 0; 0; 0; 0; 0; 1; 0; 0; 0; 0; 0; 0; 0; 0; 0; 0; 0; 0; 0; 0; 0; 0; 0; 0; 0; 0; 0; 0; 0; 0; 0; 0; 0; 0; 0; 0; 0; 0; 0; 0; 0; 0; 0; 0; 0; 0], [0; 0; 0; 0; 0; 0; 0; 0; 0; 0; 0; 0; 0; 0; 0; 0; 0; 0; 0; 0; 0; 0; 0; 0; 0; 0; 0; 0; 0; 0; 0; 0; 0; 0; 0; 0; 0; 0; 0; 0; 0; 0; 0; 0; 0; 0; 0; 0; 0; 0; 0; 0; 0; 0; 0; 0; 0; 0; 0; 0; 0; 0; 0; 0; 0; 0; 0; 0; 0; 0; 0; 0; 0; 0; 0; 0; 0; 0; 0; 0; 0; 0; 0; 0; 0; 0; 0; 0; 0; 0; 0; 0; 0; 0; 0; 0; 0; 0; 0; 0; 0; 0; 0; 0; 0; 0; 0; 0; 0; 0; 0; 0; 0; 0; 0; 0; 0; 0; 0; 0; 0; 0; 0; 0; 0; 0; 0; 0; 0; 0; 0; 0; 0; 0; 0; 0; 0; 0; 0; 0; 0; 0; 0; 0; 0; 0; 0; 0; 0; 0; 0; 0; 0; 0; 0; 0; 0; 0; 0; 0; 0; 0; 0; 0; 0; 0; 0; 0; 0; 0; 0; 0; 0; 0; 0; 0; 1; 0; 0; 0; 0; 0; 0; 0; 0; 0; 0; 0; 0; 0; 0; 0; 0; 0; 0; 0; 0; 0; 0; 0; 0; 0; 0; 0; 0; 0; 0; 0; 0; 0; 0; 0; 0; 0; 8; 0; 0; 0; 0; 0; 0; 0; 0; 0; 0; 0; 0; 0; 0; 0; 0; 0; 0; 0; 0; 0; 0; 0; 0; 0; 0; 0; 0; 0; 0; 0; 0; 0; 0; 0; 0; 0; 0; 0; 0; 0]);
    Some ([0; 0; 0; 0; 0; 0; 0; 0], [4; 0; 0; 0]);
    Some ([0; 0; 0; 0; 0; 0; 0; 96; 0; 0; 0; 128; 0; 0; 0; 32; 0; 0; 0; 64; 0; 0; 0; 96; 0; 0; 0; 32; 0; 0; 0; 224], [0; 0; 0; 64; 0; 0; 0; 192; 0; 0; 0; 160; 0; 0; 0; 128; 0; 0; 0; 32; 0; 0; 0; 96; 0; 0; 0; 96; 0; 0; 0; 96]);
    Some ([1; 0; 0; 0; 0; 0; 0; 0; 0; 0; 0; 0; 0; 0; 0; 0; 1; 0; 0; 0; 1; 0; 0; 0; 1; 0; 0; 0; 1; 0; 0; 0; 1; 0; 0; 0; 0; 0; 0; 0; 0; 0; 0; 0; 1; 0; 0; 0; 1; 0; 0; 0; 0; 0; 0; 0; 0; 0; 0; 0; 1; 0; 0; 0; 1; 0; 0; 0; 0; 0; 0; 0; 1; 0; 0; 0; 1; 0; 0; 0], [1; 0; 0; 0; 0; 0; 0; 0; 1; 0; 0; 0; 1; 0; 0; 0; 0; 0; 0; 0; 0; 0; 0; 0; 0; 0; 0; 0; 1; 0; 0; 0; 0; 0; 0; 0; 1; 0; 0; 0; 1; 0; 0; 0; 1; 0; 0; 0; 1; 0; 0; 0; 0; 0; 0; 0; 0; 0; 0; 0; 0; 0; 0; 0; 1; 0; 0; 0; 0; 0; 0; 0; 0; 0; 0; 0; 1; 0; 0; 0]);
    Some ([0; 0; 0; 0; 0; 0; 0; 128; 0; 0; 0; 0; 0; 0; 0; 0; 0; 0; 0; 128; 0; 0; 0; 128; 0; 0; 0; 0; 0; 0; 0; 128; 0; 0; 0; 0; 0; 0; 0; 0; 0; 0; 0; 128; 0; 0; 0; 0; 0; 0; 0; 128; 0; 0; 0; 0; 0; 0; 0; 0; 0; 0; 0; 0; 0; 0; 0; 0; 0; 0; 0; 0; 0; 0; 0; 128; 0; 0; 0; 128], [0; 0; 0; 0; 0; 0; 0; 0; 0; 0; 0; 0; 0; 0; 0; 0; 0; 0; 0; 128; 0; 0; 0; 128; 0; 0; 0; 0; 0; 0; 0; 0; 0; 0; 0; 128; 0; 0; 0; 128; 0; 0; 0; 128; 0; 0; 0; 128; 0; 0; 0; 128; 0; 0; 0; 0; 0; 0; 0; 0; 0; 0; 0; 128; 0; 0; 0; 128; 0; 0; 0; 0; 0; 0; 0; 128; 0; 0; 0; 0]);
    Some ([5; 0; 0; 0], [1; 0; 0; 0; 0; 0; 0; 0]);
    Some ([108; 135; 0], [109; 135]);
    Some ([9; 0; 0; 0], [10; 0; 0])]);
  ("j264l"%string, [
    Some ([70; 111; 111; 113; 100; 75; 110; 66; 97; 114], [70; 111; 111; 82; 70; 67; 71; 66; 97; 114]);
    Some ([70; 111; 111; 66; 97; 114; 115; 102; 57; 68], [70; 111; 111; 66; 97; 114; 116; 110; 81; 113]);
    Some ([83; 72; 82; 70; 70; 111; 111; 66; 97; 114], [48; 116; 111; 77; 70; 111; 111; 66; 97; 114]);
    Some ([12; 0; 96; 40], [20; 0; 0; 82]);
    Some ([0; 4; 21; 1; 64], [96; 0; 196; 0; 128]);
    Some ([128; 0; 12; 64; 32; 0], [64; 0; 5; 0; 32; 4]);
    Some ([32; 4; 0; 0; 1; 0; 64], [40; 17; 0; 0; 0; 0; 64]);
    Some ([4; 0; 2; 64; 0; 0; 0; 130], [0; 64; 0; 56; 0; 0; 0; 16]);
    Some ([0; 0; 0; 0; 4; 0; 0; 0; 32; 0; 40; 0], [0; 0; 32; 0; 0; 2; 0; 0; 0; 0; 8; 64]);
    Some ([0; 0; 0; 0; 0; 0; 0; 2; 0; 0; 0; 0; 0; 0; 32; 0; 0; 0; 0; 0; 0; 0; 0; 0; 0; 0; 0; 0; 4; 0; 0; 0], [0; 0; 0; 8; 4; 0; 0; 0; 0; 0; 0; 2; 0; 0; 0; 0; 0; 0; 0; 0; 0; 0; 0; 0; 0; 0; 0; 0; 0; 0; 0; 0]);
    Some ([0; 0; 0; 0; 0; 0; 0; 0; 0; 0; 0; 0; 0; 0; 0; 0; 0; 0; 0; 0; 0; 0; 0; 0; 0; 0; 0; 0; 0; 0; 0; 0; 0; 0; 0; 0; 0; 0; 0; 0; 0; 0; 0; 0; 0; 0; 0; 0; 0; 0; 0; 0; 0; 0; 0; 0; 0; 0; 0; 0; 0; 0; 0; 0; 0; 0; 0; 0; 0; 0; 0; 0; 0; 0; 0; 0; 0; 0; 0; 0; 0; 0; 0; 0; 0; 0; 0; 0; 0; 0; 0; 0; 0; 0; 0; 0; 0; 0; 0; 0; 0; 0; 0; 0; 0; 0; 0; 0; 0; 0; 0; 0; 0; 0; 0; 0; 8; 0; 0; 0; 0; 0; 0; 0; 0; 0; 0; 0; 0; 0; 0; 0; 0; 0; 0; 0; 0; 0; 0; 0; 0; 0; 0; 0; 0; 0; 0; 0; 0; 0; 0; 0; 0; 0; 0; 0; 0; 0; 0; 0; 0; 0; 0; 0; 0; 0; 0; 0; 0; 0; 0; 0; 0; 0; 0; 0; 0; 0; 0; 0; 0; 0; 16; 0; 0; 0; 0; 0; 0; 0; 0; 0; 0; 0; 0; 0; 0; 0; 0; 0; 0; 0; 0; 0; 0; 0; 0; 0; 0; 0; 0; 0; 0; 0; 0; 0; 0; 0; 0; 0; 0; 0; 0; 0; 0; 0; 0; 0; 0; 0; 0; 0; 0; 0; 0; 0; 0; 0; 0; 0; 0; 0; 0; 0; 0; 0; 0; 0; 0; 0; 0; 0; 0; 0; 0; 0], [0; 0; 0; 0; 0; 0; 0; 0; 0; 0; 0; 0; 0; 0; 0; 0; 0; 0; 0; 0; 0; 0; 0; 0; 0; 0; 0; 0; 0; 0; 0; 0; 0; 0; 0; 0; 0; 0; 0; 0; 0; 0; 0; 0; 0; 0; 0; 0; 0; 0; 0; 0; 0; 0; 0; 0; 0; 0; 0; 0; 0; 0; 0; 0; 0; 0; 0; 0; 0; 0; 0; 0; 0; 0; 0; 0; 0; 0; 0; 0; 0; 0; 0; 0; 0; 0; 128; 0; 0; 0; 0; 0; 0; 0; 0; 0; 0; 0; 0; 0; 0; 0; 0; 0; 0; 0; 0; 0; 0; 0; 0; 0; 0; 0; 0; 32; 0; 0; 0; 0; 0; 0; 0; 0; 0; 0; 0; 0; 0; 0; 0; 0; 0; 0; 0; 0; 0; 0; 0; 0; 0; 0; 0; 0; 0; 0; 0; 0; 0; 0; 0; 0; 0; 0; 0; 0; 0; 0; 0; 0; 0; 0; 0; 0; 0; 0; 0; 0; 0; 0; 0; 0; 0; 0; 0; 0; 0; 0; 0; 0; 0; 0; 0; 0; 0; 0; 0; 0; 0; 0; 0; 0; 0; 0; 0; 0; 0; 0; 0; 0; 0; 0; 0; 0; 0; 0; 0; 0; 0; 0; 0; 0; 0; 0; 0; 0; 0; 0; 0; 0; 0; 0; 0; 0; 0; 0; 0; 0; 0; 0; 0; 0; 0; 0; 0; 0; 0; 0; 0; 0; 0; 0; 0; 0; 0; 0; 0; 0; 0; 0; 0; 0; 0; 0; 0; 0]);
    Some ([3; 0; 0; 0; 0; 0; 0; 0; 2; 0; 0; 0; 1; 0; 0; 0; 1; 0; 0; 0; 6; 0; 0; 0; 6; 0; 0; 0; 6; 0; 0; 0], [6; 0; 0; 0; 2; 0; 0; 0; 5; 0; 0; 0; 5; 0; 0; 0; 5; 0; 0; 0; 2; 0; 0; 0; 3; 0; 0; 0; 0; 0; 0; 0]);
    Some ([0; 0; 0; 224; 0; 0; 0; 0; 0; 0; 0; 192; 0; 0; 0; 0; 0; 0; 0; 0; 0; 0; 0; 64; 0; 0; 0; 192; 0; 0; 0; 96], [0; 0; 0; 0; 0; 0; 0; 160; 0; 0; 0; 0; 0; 0; 0; 64; 0; 0; 0; 32; 0; 0; 0; 64; 0; 0; 0; 64; 0; 0; 0; 64]);
    Some ([1; 0; 0; 0; 0; 0; 0; 0; 0; 0; 0; 0; 1; 0; 0; 0; 0; 0; 0; 0; 1; 0; 0; 0; 0; 0; 0; 0; 1; 0; 0; 0; 0; 0; 0; 0; 0; 0; 0; 0; 0; 0; 0; 0; 0; 0; 0; 0; 1; 0; 0; 0; 1; 0; 0; 0; 0; 0; 0; 0; 1; 0; 0; 0; 1; 0; 0; 0; 0; 0; 0; 0; 1; 0; 0; 0; 1; 0; 0; 0], [1; 0; 0; 0; 1; 0; 0; 0; 0; 0; 0; 0; 1; 0; 0; 0; 1; 0; 0; 0; 1; 0; 0; 0; 0; 0; 0; 0; 0; 0; 0; 0; 1; 0; 0; 0; 1; 0; 0; 0; 1; 0; 0; 0; 1; 0; 0; 0; 1; 0; 0; 0; 1; 0; 0; 0; 1; 0; 0; 0; 0; 0; 0; 0; 0; 0; 0; 0; 0; 0; 0; 0; 0; 0; 0; 0; 0; 0; 0; 0]);
    Some ([0; 0; 0; 0; 0; 0; 0; 0; 0; 0; 0; 128; 0; 0; 0; 128; 0; 0; 0; 0; 0; 0; 0; 128; 0; 0; 0; 0; 0; 0; 0; 0; 0; 0; 0; 0; 0; 0; 0; 0; 0; 0; 0; 0; 0; 0; 0; 128; 0; 0; 0; 0; 0; 0; 0; 128; 0; 0; 0; 128; 0; 0; 0; 0; 0; 0; 0; 128; 0; 0; 0; 128; 0; 0; 0; 0; 0; 0; 0; 128], [0; 0; 0; 0; 0; 0; 0; 0; 0; 0; 0; 0; 0; 0; 0; 128; 0; 0; 0; 128; 0; 0; 0; 128; 0; 0; 0; 128; 0; 0; 0; 128; 0; 0; 0; 0; 0; 0; 0; 0; 0; 0; 0; 128; 0; 0; 0; 128; 0; 0; 0; 128; 0; 0; 0; 128; 0; 0; 0; 128; 0; 0; 0; 128; 0; 0; 0; 128; 0; 0; 0; 128; 0; 0; 0; 0; 0; 0; 0; 128]);
    Some ([0; 0; 0; 128; 2; 0; 0; 0; 4; 0; 0; 0; 1; 0; 0; 0; 6; 0; 0; 0; 0; 0; 0; 96], [6; 0; 0; 0; 0; 0; 0; 128; 0; 0; 0; 224; 0; 0; 0; 0; 0; 0; 0; 64; 0; 0; 0; 64]);
    Some ([38; 77; 131], [141; 172; 231]);
    Some ([0; 0; 57; 0; 0; 163], [0; 0; 0; 163; 0; 0; 0; 169; 0])]);
  ("j264h"%string, [
    Some ([70; 111; 111; 80; 84; 108; 48; 66; 97; 114], [70; 111; 111; 113; 67; 54; 67; 66; 97; 114]);
    Some ([70; 111; 111; 66; 97; 114; 83; 68; 76; 66], [70; 111; 111; 66; 97; 114; 101; 99; 51; 66]);
    Some ([101; 68; 70; 114; 70; 111; 111; 66; 97; 114], [54; 106; 101; 115; 70; 111; 111; 66; 97; 114]);
    Some ([8; 16; 3; 65], [0; 16; 3; 65]);
    Some ([2; 36; 0; 8; 48], [0; 36; 0; 8; 48]);
    Some ([0; 4; 40; 0; 0; 1], [4; 4; 40; 0; 0; 1]);
    Some ([0; 2; 32; 0; 0; 64; 1], [2; 2; 32; 0; 0; 64; 1]);
    Some ([0; 160; 0; 0; 96; 0; 0; 0], [16; 160; 0; 0; 96; 0; 0; 0]);
    Some ([0; 1; 0; 0; 0; 32; 0; 0; 0; 0; 32; 32], [0; 32; 0; 64; 0; 0; 0; 0; 8; 0; 0; 16]);
    Some ([0; 0; 0; 128; 0; 0; 0; 8; 0; 0; 0; 0; 0; 0; 0; 0; 0; 0; 0; 0; 0; 0; 0; 0; 0; 1; 0; 0; 0; 0; 0; 0], [0; 0; 0; 0; 0; 0; 0; 0; 0; 0; 0; 0; 0; 1; 0; 0; 0; 32; 0; 0; 0; 0; 0; 0; 0; 64; 0; 0; 0; 0; 0; 0]);
    Some ([0; 0; 0; 64; 0; 0; 0; 0; 0; 0; 0; 0; 0; 0; 0; 0; 0; 0; 0; 0; 0; 0; 0; 0; 0; 0; 0; 0; 0; 0; 0; 0; 0; 0; 0; 0; 0; 0; 0; 0; 0; 0; 0; 0; 0; 0; 0; 0; 0; 0; 0; 0; 0; 0; 0; 0; 0; 0; 0; 0; 0; 0; 0; 0; 0; 0; 0; 0; 0; 0; 0; 0; 0; 0; 0; 0; 0; 0; 0; 0; 0; 0; 0; 0; 0; 0; 0; 0; 0; 0; 0; 0; 0; 0; 0; 0; 0; 0; 0; 0; 0; 0; 0; 0; 0; 0; 0; 0; 0; 0; 0; 0; 0; 0; 0; 0; 0; 0; 0; 0; 0; 0; 0; 0; 0; 0; 0; 0; 0; 0; 0; 0; 0; 0; 0; 0; 0; 0; 0; 0; 0; 0; 0; 0; 0; 0; 0; 0; 0; 0; 0; 0; 0; 0; 0; 0; 0; 0; 0; 0; 0; 0; 0; 0; 0; 0; 0; 0; 0; 0; 0; 0; 0; 0; 0; 0; 0; 0; 0; 0; 0; 0; 0; 0; 0; 0; 0; 0; 0; 0; 0; 0; 0; 0; 0; 0; 0; 0; 0; 0; 0; 0; 0; 0; 0; 0; 0; 0; 0; 0; 0; 2; 0; 0; 0; 0; 0; 0; 0; 0; 0; 0; 0; 0; 0; 0; 0; 0; 0; 0; 0; 0; 0; 0; 0; 0; 0; 0; 0; 0; 0; 0; 0; 0; 0; 0; 0; 0; 0; 0; 0; 0; 0; 0; 0; 0], [0; 0; 0; 0; 0; 0; 0; 0; 0; 0; 0; 0; 0; 0; 0; 0; 0; 0; 0; 0; 0; 0; 0; 0; 0; 0; 0; 0; 0; 0; 0; 0; 0; 0; 0; 0; 0; 0; 0; 0; 0; 0; 0; 0; 0; 0; 0; 0; 0; 0; 0; 0; 0; 0; 0; 0; 0; 0; 0; 0; 0; 0; 0; 0; 0; 0; 0; 0; 0; 0; 0; 0; 0; 0; 0; 0; 0; 0; 0; 0; 0; 0; 0; 0; 0; 0; 0; 0; 0; 0; 0; 0; 0; 0; 0; 0; 0; 0; 0; 0; 0; 0; 0; 0; 0; 0; 0; 0; 0; 0; 0; 0; 128; 0; 0; 0; 0; 0; 0; 0; 0; 0; 0; 0; 0; 0; 0; 0; 0; 0; 0; 0; 0; 0; 0; 0; 0; 0; 0; 0; 0; 0; 0; 0; 0; 0; 0; 0; 0; 0; 0; 128; 0; 0; 0; 0; 0; 0; 0; 0; 0; 0; 0; 0; 0; 0; 0; 0; 0; 0; 0; 0; 0; 0; 0; 0; 0; 0; 0; 0; 0; 0; 0; 0; 0; 0; 0; 0; 0; 0; 0; 0; 0; 0; 0; 0; 0; 0; 0; 0; 0; 0; 0; 0; 0; 0; 0; 0; 0; 0; 0; 0; 0; 0; 0; 0; 0; 0; 0; 0; 0; 0; 0; 0; 0; 0; 0; 0; 0; 0; 0; 0; 0; 0; 0; 0; 0; 0; 0; 0; 0; 0; 0; 0; 0; 0; 0; 0; 0; 0; 0; 0; 0; 0; 0; 0]);
    Some ([1; 0; 0; 0; 7; 0; 0; 0; 1; 0; 0; 0; 6; 0; 0; 0; 4; 0; 0; 0; 4; 0; 0; 0; 2; 0; 0; 0; 3; 0; 0; 0], [4; 0; 0; 0; 4; 0; 0; 0; 1; 0; 0; 0; 3; 0; 0; 0; 2; 0; 0; 0; 1; 0; 0; 0; 7; 0; 0; 0; 0; 0; 0; 0]);
    Some ([0; 0; 0; 0; 0; 0; 0; 32; 0; 0; 0; 128; 0; 0; 0; 64; 0; 0; 0; 32; 0; 0; 0; 96; 0; 0; 0; 0; 0; 0; 0; 128], [0; 0; 0; 128; 0; 0; 0; 224; 0; 0; 0; 224; 0; 0; 0; 192; 0; 0; 0; 64; 0; 0; 0; 160; 0; 0; 0; 96; 0; 0; 0; 128]);
    Some ([1; 0; 0; 0; 0; 0; 0; 0; 0; 0; 0; 0; 1; 0; 0; 0; 0; 0; 0; 0; 1; 0; 0; 0; 0; 0; 0; 0; 0; 0; 0; 0; 0; 0; 0; 0; 1; 0; 0; 0; 1; 0; 0; 0; 0; 0; 0; 0; 1; 0; 0; 0; 1; 0; 0; 0; 0; 0; 0; 0; 1; 0; 0; 0; 0; 0; 0; 0; 0; 0; 0; 0; 0; 0; 0; 0; 1; 0; 0; 0], [0; 0; 0; 0; 1; 0; 0; 0; 1; 0; 0; 0; 0; 0; 0; 0; 1; 0; 0; 0; 0; 0; 0; 0; 1; 0; 0; 0; 1; 0; 0; 0; 0; 0; 0; 0; 0; 0; 0; 0; 0; 0; 0; 0; 0; 0; 0; 0; 1; 0; 0; 0; 1; 0; 0; 0; 1; 0; 0; 0; 1; 0; 0; 0; 0; 0; 0; 0; 0; 0; 0; 0; 0; 0; 0; 0; 1; 0; 0; 0]);
    Some ([0; 0; 0; 0; 0; 0; 0; 0; 0; 0; 0; 128; 0; 0; 0; 128; 0; 0; 0; 128; 0; 0; 0; 128; 0; 0; 0; 128; 0; 0; 0; 128; 0; 0; 0; 128; 0; 0; 0; 0; 0; 0; 0; 128; 0; 0; 0; 128; 0; 0; 0; 0; 0; 0; 0; 0; 0; 0; 0; 0; 0; 0; 0; 128; 0; 0; 0; 128; 0; 0; 0; 128; 0; 0; 0; 128; 0; 0; 0; 128], [0; 0; 0; 128; 0; 0; 0; 128; 0; 0; 0; 128; 0; 0; 0; 128; 0; 0; 0; 0; 0; 0; 0; 0; 0; 0; 0; 128; 0; 0; 0; 0; 0; 0; 0; 128; 0; 0; 0; 0; 0; 0; 0; 0; 0; 0; 0; 0; 0; 0; 0; 0; 0; 0; 0; 128; 0; 0; 0; 0; 0; 0; 0; 128; 0; 0; 0; 0; 0; 0; 0; 0; 0; 0; 0; 0; 0; 0; 0; 0]);
    Some ([0; 0; 0; 128; 3; 0; 0; 0; 0; 0; 0; 0; 0; 0; 0; 224; 4; 0; 0; 0; 0; 0; 0; 64], [0; 0; 0; 224; 4; 0; 0; 0; 7; 0; 0; 0; 1; 0; 0; 0; 0; 0; 0; 96; 3; 0; 0; 0]);
    Some ([141; 205; 159], [100; 83; 193]);
    Some ([145; 0; 0; 0; 0; 0; 0; 0; 0; 0; 252; 0], [0; 0; 0; 9; 8; 0; 0; 0; 0; 0; 0; 0])]);
  ("j264xor"%string, [
    Some ([70; 111; 111; 53; 73; 82; 77; 66; 97; 114], [70; 111; 111; 79; 82; 107; 98; 66; 97; 114]);
    Some ([70; 111; 111; 66; 97; 114; 79; 72; 101; 57], [70; 111; 111; 66; 97; 114; 57; 109; 50; 76]);
    Some ([108; 72; 71; 75; 70; 111; 111; 66; 97; 114], [71; 98; 73; 66; 70; 111; 111; 66; 97; 114]);
    Some ([129; 32; 0; 20], [18; 48; 2; 0]);
    Some ([40; 1; 128; 128; 32], [0; 36; 8; 10; 0]);
    Some ([32; 64; 1; 0; 16; 4], [0; 128; 32; 64; 96; 0]);
    Some ([2; 0; 22; 0; 0; 0; 8], [0; 4; 128; 32; 0; 34; 0]);
    Some ([0; 4; 0; 16; 0; 0; 134; 0], [6; 64; 0; 0; 0; 64; 4; 0]);
    Some ([0; 0; 0; 16; 40; 0; 0; 0; 2; 0; 0; 0], [0; 0; 1; 0; 0; 0; 64; 64; 0; 0; 0; 0]);
    Some ([16; 0; 0; 0; 0; 0; 0; 0; 0; 0; 0; 0; 0; 0; 0; 0; 0; 0; 0; 2; 0; 0; 1; 0; 0; 0; 0; 0; 0; 0; 0; 0], [0; 0; 64; 0; 0; 0; 0; 0; 0; 0; 0; 0; 0; 0; 0; 0; 0; 0; 0; 0; 0; 2; 0; 0; 0; 0; 0; 0; 0; 0; 64; 0]);
    Some ([0; 0; 0; 0; 0; 0; 0; 0; 0; 0; 0; 0; 0; 0; 0; 0; 0; 0; 0; 0; 0; 0; 0; 0; 0; 0; 0; 0; 0; 0; 0; 0; 0; 0; 0; 0; 0; 0; 0; 0; 0; 0; 0; 0; 0; 0; 0; 0; 0; 0; 2; 4; 0; 0; 0; 0; 0; 0; 0; 0; 0; 0; 0; 0; 0; 0; 0; 0; 0; 0; 0; 0; 0; 0; 0; 0; 0; 0; 0; 0; 0; 0; 0; 0; 0; 0; 0; 0; 0; 0; 0; 0; 0; 0; 0; 0; 0; 0; 0; 0; 0; 0; 0; 0; 0; 0; 0; 0; 0; 0; 0; 0; 0; 0; 0; 0; 0; 0; 0; 0; 0; 0; 0; 0; 0; 0; 0; 0; 0; 0; 0; 0; 0; 0; 0; 0; 0; 0; 0; 0; 0; 0; 0; 0; 0; 0; 0; 0; 0; 0; 0; 0; 0; 0; 0; 0; 0; 0; 0; 0; 0; 0; 0; 0; 0; 0; 0; 0; 0; 0; 0; 0; 0; 0; 0; 0; 0; 0; 0; 0; 0; 0; 0; 0; 0; 0; 0; 0; 0; 0; 0; 0; 0; 0; 0; 0; 0; 0; 0; 0; 0; 0; 0; 0; 0; 0; 0; 0; 0; 0; 0; 0; 0; 0; 0; 0; 0; 0; 0; 0; 0; 0; 0; 0; 0; 0; 0; 0; 0; 0; 0; 0; 0; 0; 0; 0; 0; 0; 0; 0; 0; 0; 0; 0; 0; 0; 0; 0; 0; 0; 0; 0; 0; 0; 0; 0], [0; 0; 0; 0; 0; 0; 0; 0; 0; 0; 0; 0; 0; 0; 0; 0; 0; 0; 0; 0; 0; 0; 0; 0; 0; 0; 0; 0; 0; 0; 0; 0; 0; 0; 0; 0; 0; 0; 0; 0; 0; 0; 0; 0; 0; 0; 0; 0; 0; 0; 0; 0; 0; 0; 0; 0; 0; 0; 0; 0; 0; 0; 0; 0; 0; 0; 0; 0; 0; 0; 0; 0; 0; 0; 0; 0; 0; 0; 0; 0; 0; 0; 0; 0; 0; 0; 0; 0; 0; 0; 0; 0; 0; 0; 0; 0; 0; 0; 0; 0; 0; 0; 0; 0; 0; 0; 0; 0; 0; 0; 0; 0; 0; 0; 0; 0; 0; 0; 0; 0; 0; 0; 0; 0; 0; 0; 0; 0; 0; 0; 0; 0; 0; 0; 0; 0; 0; 0; 0; 0; 0; 0; 0; 0; 0; 0; 0; 0; 0; 0; 0; 0; 0; 0; 0; 0; 0; 0; 0; 0; 0; 0; 0; 0; 0; 0; 0; 0; 0; 0; 0; 0; 0; 0; 0; 0; 0; 0; 0; 0; 0; 0; 0; 0; 0; 0; 0; 0; 0; 0; 0; 0; 0; 0; 0; 0; 0; 0; 0; 0; 0; 32; 0; 0; 0; 0; 0; 0; 2; 0; 0; 0; 0; 0; 0; 0; 0; 0; 0; 0; 0; 0; 0; 0; 0; 0; 0; 0; 0; 0; 0; 0; 0; 0; 0; 0; 0; 0; 0; 0; 0; 0; 0; 0; 0; 0; 0; 0; 0; 0; 0; 0; 0; 0; 0; 0]);
    Some ([5; 0; 0; 0; 5; 0; 0; 0; 4; 0; 0; 0; 2; 0; 0; 0; 4; 0; 0; 0; 7; 0; 0; 0; 3; 0; 0; 0; 3; 0; 0; 0], [1; 0; 0; 0; 6; 0; 0; 0; 1; 0; 0; 0; 0; 0; 0; 0; 1; 0; 0; 0; 5; 0; 0; 0; 6; 0; 0; 0; 5; 0; 0; 0]);
    Some ([0; 0; 0; 0; 0; 0; 0; 192; 0; 0; 0; 160; 0; 0; 0; 64; 0; 0; 0; 224; 0; 0; 0; 192; 0; 0; 0; 32; 0; 0; 0; 160], [0; 0; 0; 192; 0; 0; 0; 160; 0; 0; 0; 32; 0; 0; 0; 64; 0; 0; 0; 192; 0; 0; 0; 0; 0; 0; 0; 0; 0; 0; 0; 0]);
    Some ([1; 0; 0; 0; 0; 0; 0; 0; 0; 0; 0; 0; 0; 0; 0; 0; 0; 0; 0; 0; 1; 0; 0; 0; 0; 0; 0; 0; 1; 0; 0; 0; 0; 0; 0; 0; 0; 0; 0; 0; 1; 0; 0; 0; 1; 0; 0; 0; 1; 0; 0; 0; 0; 0; 0; 0; 1; 0; 0; 0; 0; 0; 0; 0; 0; 0; 0; 0; 1; 0; 0; 0; 0; 0; 0; 0; 0; 0; 0; 0], [1; 0; 0; 0; 1; 0; 0; 0; 1; 0; 0; 0; 1; 0; 0; 0; 1; 0; 0; 0; 1; 0; 0; 0; 1; 0; 0; 0; 0; 0; 0; 0; 0; 0; 0; 0; 0; 0; 0; 0; 1; 0; 0; 0; 0; 0; 0; 0; 1; 0; 0; 0; 0; 0; 0; 0; 1; 0; 0; 0; 1; 0; 0; 0; 1; 0; 0; 0; 1; 0; 0; 0; 0; 0; 0; 0; 1; 0; 0; 0]);
    Some ([0; 0; 0; 0; 0; 0; 0; 128; 0; 0; 0; 0; 0; 0; 0; 128; 0; 0; 0; 128; 0; 0; 0; 0; 0; 0; 0; 0; 0; 0; 0; 128; 0; 0; 0; 128; 0; 0; 0; 0; 0; 0; 0; 128; 0; 0; 0; 128; 0; 0; 0; 128; 0; 0; 0; 128; 0; 0; 0; 128; 0; 0; 0; 0; 0; 0; 0; 0; 0; 0; 0; 0; 0; 0; 0; 0; 0; 0; 0; 128], [0; 0; 0; 128; 0; 0; 0; 0; 0; 0; 0; 128; 0; 0; 0; 128; 0; 0; 0; 0; 0; 0; 0; 128; 0; 0; 0; 128; 0; 0; 0; 0; 0; 0; 0; 0; 0; 0; 0; 0; 0; 0; 0; 0; 0; 0; 0; 128; 0; 0; 0; 0; 0; 0; 0; 0; 0; 0; 0; 128; 0; 0; 0; 128; 0; 0; 0; 128; 0; 0; 0; 0; 0; 0; 0; 128; 0; 0; 0; 128]);
    Some ([5; 0; 0; 0; 4; 0; 0; 0; 4; 0; 0; 0; 1; 0; 0; 0; 5; 0; 0; 0; 1; 0; 0; 0], [0; 0; 0; 32; 0; 0; 0; 0; 0; 0; 0; 128; 0; 0; 0; 96; 6; 0; 0; 0; 3; 0; 0; 0]);
    Some ([51; 220; 79], [48; 11; 28]);
    Some ([0; 0; 0; 0; 0; 20; 198; 0], [0; 251; 0; 170; 0; 0; 0; 0; 0; 0])]);
  ("spooky32"%string, [
    Some ([70; 111; 111; 105; 72; 111; 72; 66; 97; 114], [70; 111; 111; 78; 79; 51; 52; 66; 97; 114]);
    Some ([70; 111; 111; 66; 97; 114; 65; 81; 50; 66], [70; 111; 111; 66; 97; 114; 82; 111; 101; 71]);
    Some ([109; 56; 56; 51; 70; 111; 111; 66; 97; 114], [103; 114; 100; 74; 70; 111; 111; 66; 97; 114]);
    Some ([216; 0; 0; 128], [4; 66; 2; 1]);
    Some ([64; 2; 16; 1; 72], [0; 0; 4; 130; 98]);
    Some ([1; 2; 144; 0; 0; 8], [130; 0; 40; 1; 0; 0]);
    Some ([0; 0; 2; 4; 1; 8; 4], [0; 32; 20; 128; 0; 0; 8]);
    Some ([64; 16; 1; 128; 0; 0; 1; 0], [4; 2; 2; 0; 0; 4; 0; 4]);
    Some ([128; 2; 0; 0; 32; 0; 0; 16; 0; 0; 0; 0], [0; 0; 0; 0; 0; 0; 32; 2; 0; 20; 0; 0]);
    Some ([128; 0; 0; 0; 4; 0; 0; 0; 0; 0; 0; 0; 0; 0; 0; 0; 0; 0; 0; 0; 0; 0; 0; 1; 0; 0; 0; 0; 0; 0; 0; 0], [128; 0; 0; 0; 0; 0; 0; 0; 0; 0; 0; 0; 0; 8; 0; 0; 0; 0; 0; 0; 0; 0; 2; 0; 0; 0; 0; 0; 0; 0; 0; 0]);
    Some ([64; 0; 0; 0; 0; 0; 0; 64; 0; 0; 0; 0; 0; 0; 0; 0; 0; 0; 0; 0; 0; 0; 0; 0; 0; 0; 0; 0; 0; 0; 0; 0; 0; 0; 0; 0; 0; 0; 0; 0; 0; 0; 0; 0; 0; 0; 0; 0; 0; 0; 0; 0; 0; 0; 0; 0; 0; 0; 0; 0; 0; 0; 0; 0; 0; 0; 0; 0; 0; 0; 0; 0; 0; 0; 0; 0; 0; 0; 0; 0; 0; 0; 0; 0; 0; 0; 0; 0; 0; 0; 0; 0; 0; 0; 0; 0; 0; 0; 0; 0; 0; 0; 0; 0; 0; 0; 0; 0; 0; 0; 0; 0; 0; 0; 0; 0; 0; 0; 0; 0; 0; 0; 0; 0; 0; 0; 0; 0; 0; 0; 0; 0; 0; 0; 0; 0; 0; 0; 0; 0; 0; 0; 0; 0; 0; 0; 0; 0; 0; 0; 0; 0; 0; 0; 0; 0; 0; 0; 0; 0; 0; 0; 0; 0; 0; 0; 0; 0; 0; 0; 0; 0; 0; 0; 0; 0; 0; 0; 0; 0; 0; 0; 0; 0; 0; 0; 0; 0; 0; 0; 0; 0; 0; 0; 0; 0; 0; 0; 0; 0; 0; 0; 0; 0; 0; 0; 0; 0; 0; 0; 0; 0; 0; 0; 0; 0; 0; 0; 0; 0; 0; 0; 0; 0; 0; 0; 0; 0; 0; 0; 0; 0; 0; 0; 0; 0; 0; 0; 0; 0; 0; 0; 0; 0; 0; 0; 0; 0; 0; 0; 0; 0; 0; 0; 0; 0], [0; 0; 0; 0; 0; 0; 0; 0; 0; 0; 0; 0; 0; 0; 0; 0; 0; 0; 0; 0; 0; 0; 0; 0; 0; 0; 0; 0; 0; 0; 0; 0; 0; 0; 0; 0; 0; 0; 0; 0; 0; 0; 0; 0; 0; 0; 0; 0; 0; 0; 0; 0; 0; 0; 0; 0; 0; 0; 0; 0; 0; 0; 0; 0; 0; 0; 0; 0; 0; 0; 0; 0; 0; 0; 0; 0; 0; 0; 0; 0; 0; 0; 0; 0; 0; 0; 0; 0; 0; 0; 0; 0; 0; 0; 0; 0; 0; 0; 0; 0; 0; 0; 0; 0; 0; 0; 0; 0; 0; 128; 0; 0; 0; 0; 0; 0; 0; 0; 0; 0; 0; 0; 0; 0; 0; 0; 0; 0; 0; 0; 0; 0; 0; 0; 0; 0; 0; 0; 0; 0; 0; 0; 0; 0; 0; 0; 0; 0; 0; 0; 0; 0; 0; 0; 0; 0; 0; 0; 0; 0; 0; 0; 0; 0; 0; 0; 0; 0; 0; 0; 0; 0; 0; 0; 0; 0; 0; 0; 0; 0; 0; 0; 0; 0; 0; 0; 0; 0; 0; 0; 0; 0; 0; 0; 0; 0; 0; 0; 0; 0; 0; 0; 0; 0; 0; 0; 0; 0; 0; 0; 0; 0; 0; 0; 0; 0; 0; 0; 16; 0; 0; 0; 0; 0; 0; 0; 0; 0; 0; 0; 0; 0; 0; 0; 0; 0; 0; 0; 0; 0; 0; 0; 0; 0; 0; 0; 0; 0; 0; 0; 0; 0; 0; 0; 0; 0]);
    Some ([2; 0; 0; 0; 1; 0; 0; 0; 0; 0; 0; 0; 2; 0; 0; 0; 3; 0; 0; 0; 3; 0; 0; 0; 5; 0; 0; 0; 4; 0; 0; 0], [1; 0; 0; 0; 1; 0; 0; 0; 2; 0; 0; 0; 2; 0; 0; 0; 0; 0; 0; 0; 4; 0; 0; 0; 4; 0; 0; 0; 6; 0; 0; 0]);
    Some ([0; 0; 0; 0; 0; 0; 0; 64; 0; 0; 0; 32; 0; 0; 0; 32; 0; 0; 0; 224; 0; 0; 0; 64; 0; 0; 0; 192; 0; 0; 0; 224], [0; 0; 0; 32; 0; 0; 0; 128; 0; 0; 0; 64; 0; 0; 0; 64; 0; 0; 0; 224; 0; 0; 0; 64; 0; 0; 0; 160; 0; 0; 0; 64]);
    Some ([0; 0; 0; 0; 0; 0; 0; 0; 1; 0; 0; 0; 0; 0; 0; 0; 0; 0; 0; 0; 0; 0; 0; 0; 0; 0; 0; 0; 1; 0; 0; 0; 0; 0; 0; 0; 1; 0; 0; 0; 0; 0; 0; 0; 1; 0; 0; 0; 0; 0; 0; 0; 0; 0; 0; 0; 1; 0; 0; 0; 1; 0; 0; 0; 1; 0; 0; 0; 1; 0; 0; 0; 0; 0; 0; 0; 1; 0; 0; 0], [1; 0; 0; 0; 1; 0; 0; 0; 1; 0; 0; 0; 1; 0; 0; 0; 0; 0; 0; 0; 1; 0; 0; 0; 0; 0; 0; 0; 1; 0; 0; 0; 0; 0; 0; 0; 1; 0; 0; 0; 0; 0; 0; 0; 0; 0; 0; 0; 1; 0; 0; 0; 0; 0; 0; 0; 1; 0; 0; 0; 1; 0; 0; 0; 0; 0; 0; 0; 1; 0; 0; 0; 0; 0; 0; 0; 1; 0; 0; 0]);
    Some ([0; 0; 0; 0; 0; 0; 0; 0; 0; 0; 0; 0; 0; 0; 0; 128; 0; 0; 0; 128; 0; 0; 0; 0; 0; 0; 0; 0; 0; 0; 0; 128; 0; 0; 0; 128; 0; 0; 0; 128; 0; 0; 0; 128; 0; 0; 0; 0; 0; 0; 0; 128; 0; 0; 0; 0; 0; 0; 0; 128; 0; 0; 0; 0; 0; 0; 0; 0; 0; 0; 0; 128; 0; 0; 0; 128; 0; 0; 0; 128], [0; 0; 0; 128; 0; 0; 0; 0; 0; 0; 0; 128; 0; 0; 0; 0; 0; 0; 0; 0; 0; 0; 0; 0; 0; 0; 0; 128; 0; 0; 0; 0; 0; 0; 0; 0; 0; 0; 0; 128; 0; 0; 0; 128; 0; 0; 0; 128; 0; 0; 0; 128; 0; 0; 0; 0; 0; 0; 0; 128; 0; 0; 0; 0; 0; 0; 0; 0; 0; 0; 0; 0; 0; 0; 0; 128; 0; 0; 0; 0]);
    Some ([0; 0; 0; 128; 0; 0; 0; 192; 0; 0; 0; 0; 4; 0; 0; 0; 0; 0; 0; 64; 2; 0; 0; 0], [0; 0; 0; 160; 0; 0; 0; 96; 0; 0; 0; 64; 6; 0; 0; 0; 0; 0; 0; 64; 5; 0; 0; 0]);
    Some ([241; 151; 247], [90; 5; 210]);
    Some ([0; 0; 186; 104; 0], [0; 0; 142; 0; 0; 0; 224; 0; 0; 0])]);
  ("sbox"%string, [
    Some ([70; 111; 111; 56; 82; 84; 115; 66; 97; 114], [70; 111; 111; 79; 116; 53; 114; 66; 97; 114]);
    Some ([70; 111; 111; 66; 97; 114; 49; 109; 71; 83], [70; 111; 111; 66; 97; 114; 106; 49; 70; 111]);
    Some ([109; 110; 70; 99; 70; 111; 111; 66; 97; 114], [65; 81; 80; 70; 70; 111; 111; 66; 97; 114]);
    Some ([84; 34; 0; 64], [32; 48; 25; 0]);
    Some ([32; 0; 132; 18; 2], [0; 17; 73; 0; 0]);
    Some ([0; 0; 0; 3; 32; 16], [17; 0; 8; 0; 0; 66]);
    Some ([0; 0; 4; 132; 64; 0; 2], [18; 0; 2; 32; 0; 32; 0]);
    Some ([0; 2; 0; 4; 0; 128; 2; 4], [32; 16; 0; 0; 32; 0; 4; 64]);
    Some ([0; 128; 0; 1; 0; 0; 2; 0; 0; 0; 0; 64], [0; 0; 1; 0; 0; 0; 0; 16; 0; 0; 0; 20]);
    Some ([0; 0; 0; 0; 0; 0; 0; 0; 0; 0; 0; 0; 0; 0; 0; 0; 0; 0; 4; 0; 1; 0; 0; 0; 0; 0; 0; 0; 0; 128; 0; 0], [0; 0; 0; 0; 0; 2; 0; 1; 0; 0; 0; 0; 0; 0; 0; 0; 0; 0; 0; 0; 0; 0; 0; 0; 0; 0; 0; 0; 0; 0; 0; 8]);
    Some ([0; 0; 0; 0; 0; 0; 0; 0; 0; 0; 0; 0; 0; 0; 0; 0; 0; 0; 0; 0; 0; 0; 0; 0; 0; 0; 0; 0; 0; 0; 0; 0; 0; 0; 0; 0; 0; 0; 0; 0; 0; 0; 0; 0; 0; 0; 0; 0; 0; 0; 0; 0; 0; 0; 0; 0; 0; 0; 0; 0; 0; 0; 0; 0; 0; 0; 0; 0; 0; 0; 0; 0; 0; 0; 0; 0; 0; 0; 0; 0; 0; 0; 0; 0; 0; 0; 0; 0; 0; 0; 0; 0; 0; 0; 0; 0; 0; 0; 0; 0; 0; 0; 0; 0; 0; 0; 0; 0; 0; 0; 0; 0; 0; 0; 0; 0; 0; 0; 0; 0; 0; 0; 0; 0; 0; 64; 0; 0; 0; 0; 0; 0; 0; 0; 0; 0; 0; 0; 0; 0; 0; 0; 0; 0; 0; 0; 0; 0; 0; 0; 0; 0; 0; 0; 0; 0; 0; 0; 0; 0; 0; 0; 0; 0; 0; 0; 0; 0; 0; 0; 0; 0; 0; 0; 0; 0; 0; 0; 0; 0; 0; 0; 0; 0; 0; 0; 0; 0; 0; 0; 0; 0; 0; 0; 0; 0; 0; 0; 0; 0; 0; 0; 0; 0; 0; 0; 0; 0; 0; 0; 0; 0; 0; 0; 0; 0; 0; 0; 0; 0; 0; 0; 0; 0; 0; 0; 0; 0; 0; 0; 0; 0; 0; 0; 128; 0; 0; 0; 0; 0; 0; 0; 0; 0; 0; 0; 0; 0; 0; 0; 0; 0; 0; 0; 0; 0], [0; 0; 0; 0; 0; 0; 0; 0; 0; 0; 0; 0; 0; 0; 0; 0; 0; 0; 0; 0; 0; 0; 0; 0; 0; 0; 0; 0; 0; 0; 0; 0; 0; 0; 0; 0; 0; 0; 0; 0; 0; 0; 0; 0; 0; 0; 0; 0; 0; 0; 0; 0; 0; 0; 0; 0; 0; 0; 0; 0; 0; 0; 0; 0; 0; 0; 0; 0; 0; 0; 0; 0; 0; 0; 0; 0; 0; 0; 0; 0; 0; 0; 0; 0; 4; 0; 0; 0; 0; 0; 0; 0; 0; 0; 0; 0; 0; 0; 0; 0; 0; 0; 0; 0; 0; 0; 0; 0; 0; 0; 0; 0; 0; 0; 0; 0; 0; 0; 0; 0; 0; 0; 0; 0; 0; 0; 0; 0; 0; 0; 0; 0; 0; 0; 0; 0; 0; 0; 0; 0; 0; 0; 0; 0; 0; 0; 0; 0; 0; 0; 0; 0; 0; 0; 0; 0; 0; 0; 0; 0; 0; 0; 0; 0; 0; 0; 0; 0; 0; 0; 0; 0; 0; 0; 0; 0; 0; 0; 0; 0; 0; 0; 0; 0; 0; 0; 0; 0; 0; 0; 0; 0; 0; 0; 0; 0; 0; 0; 0; 0; 0; 0; 0; 0; 0; 0; 0; 4; 0; 0; 0; 0; 0; 0; 0; 0; 0; 0; 0; 0; 0; 0; 0; 0; 0; 0; 0; 0; 0; 0; 0; 0; 0; 0; 0; 0; 0; 0; 0; 0; 0; 0; 0; 0; 0; 0; 0; 0; 0; 0; 0; 0; 0; 0; 0; 0]);
    Some ([4; 0; 0; 0; 7; 0; 0; 0; 6; 0; 0; 0; 6; 0; 0; 0; 0; 0; 0; 0; 6; 0; 0; 0; 6; 0; 0; 0; 4; 0; 0; 0], [0; 0; 0; 0; 0; 0; 0; 0; 3; 0; 0; 0; 2; 0; 0; 0; 1; 0; 0; 0; 5; 0; 0; 0; 7; 0; 0; 0; 7; 0; 0; 0]);
    Some ([0; 0; 0; 64; 0; 0; 0; 160; 0; 0; 0; 192; 0; 0; 0; 96; 0; 0; 0; 0; 0; 0; 0; 32; 0; 0; 0; 0; 0; 0; 0; 128], [0; 0; 0; 0; 0; 0; 0; 96; 0; 0; 0; 224; 0; 0; 0; 96; 0; 0; 0; 0; 0; 0; 0; 0; 0; 0; 0; 160; 0; 0; 0; 192]);
    Some ([0; 0; 0; 0; 1; 0; 0; 0; 1; 0; 0; 0; 0; 0; 0; 0; 1; 0; 0; 0; 1; 0; 0; 0; 1; 0; 0; 0; 1; 0; 0; 0; 1; 0; 0; 0; 1; 0; 0; 0; 0; 0; 0; 0; 0; 0; 0; 0; 0; 0; 0; 0; 0; 0; 0; 0; 1; 0; 0; 0; 0; 0; 0; 0; 1; 0; 0; 0; 0; 0; 0; 0; 0; 0; 0; 0; 0; 0; 0; 0], [0; 0; 0; 0; 1; 0; 0; 0; 0; 0; 0; 0; 0; 0; 0; 0; 1; 0; 0; 0; 1; 0; 0; 0; 0; 0; 0; 0; 1; 0; 0; 0; 1; 0; 0; 0; 0; 0; 0; 0; 0; 0; 0; 0; 1; 0; 0; 0; 0; 0; 0; 0; 0; 0; 0; 0; 1; 0; 0; 0; 0; 0; 0; 0; 0; 0; 0; 0; 1; 0; 0; 0; 0; 0; 0; 0; 0; 0; 0; 0]);
    Some ([0; 0; 0; 128; 0; 0; 0; 0; 0; 0; 0; 0; 0; 0; 0; 128; 0; 0; 0; 128; 0; 0; 0; 0; 0; 0; 0; 128; 0; 0; 0; 0; 0; 0; 0; 0; 0; 0; 0; 128; 0; 0; 0; 128; 0; 0; 0; 0; 0; 0; 0; 128; 0; 0; 0; 0; 0; 0; 0; 128; 0; 0; 0; 128; 0; 0; 0; 0; 0; 0; 0; 0; 0; 0; 0; 128; 0; 0; 0; 0], [0; 0; 0; 0; 0; 0; 0; 0; 0; 0; 0; 128; 0; 0; 0; 0; 0; 0; 0; 0; 0; 0; 0; 0; 0; 0; 0; 128; 0; 0; 0; 0; 0; 0; 0; 0; 0; 0; 0; 128; 0; 0; 0; 128; 0; 0; 0; 0; 0; 0; 0; 128; 0; 0; 0; 128; 0; 0; 0; 0; 0; 0; 0; 128; 0; 0; 0; 128; 0; 0; 0; 128; 0; 0; 0; 0; 0; 0; 0; 128]);
    Some ([0; 0; 0; 128; 6; 0; 0; 0; 3; 0; 0; 0; 3; 0; 0; 0; 0; 0; 0; 128], [0; 0; 0; 160; 0; 0; 0; 224; 1; 0; 0; 0; 0; 0; 0; 192; 7; 0; 0; 0; 1; 0; 0; 0]);
    Some ([251; 126; 231], [7; 163; 228]);
    Some ([0; 0; 42; 0; 0; 0; 0; 3; 0; 0], [242; 114; 0; 0; 0; 0; 0])]);
  ("FarmHash32"%string, [
    Some ([70; 111; 111; 80; 102; 80; 114; 66; 97; 114], [70; 111; 111; 66; 115; 108; 103; 66; 97; 114]);
    Some ([70; 111; 111; 66; 97; 114; 50; 49; 112; 73], [70; 111; 111; 66; 97; 114; 81; 72; 113; 114]);
    None;
    Some ([0; 3; 33; 5], [194; 0; 0; 49]);
    Some ([33; 1; 0; 8; 132], [34; 0; 136; 8; 32]);
    Some ([2; 16; 0; 16; 48; 0], [1; 32; 17; 0; 1; 0]);
    Some ([32; 0; 1; 16; 2; 32; 0], [0; 16; 3; 64; 0; 0; 0]);
    Some ([2; 0; 1; 5; 0; 0; 0; 8], [0; 0; 0; 96; 0; 8; 4; 0]);
    Some ([0; 1; 0; 0; 8; 0; 0; 0; 16; 0; 64; 0], [17; 0; 0; 0; 0; 0; 0; 128; 0; 16; 0; 0]);
    Some ([0; 2; 0; 0; 0; 1; 0; 32; 0; 0; 0; 0; 0; 0; 0; 0; 0; 0; 0; 0; 0; 0; 0; 0; 0; 0; 0; 0; 0; 0; 0; 0], [0; 0; 2; 0; 0; 0; 0; 0; 0; 0; 0; 0; 0; 0; 64; 0; 0; 0; 0; 0; 0; 0; 0; 0; 0; 0; 0; 0; 0; 0; 4; 0]);
    Some ([0; 0; 0; 0; 0; 0; 0; 0; 0; 0; 0; 0; 0; 0; 0; 0; 0; 0; 0; 0; 0; 0; 0; 0; 0; 0; 0; 0; 0; 0; 0; 0; 0; 0; 0; 0; 0; 0; 0; 0; 0; 0; 0; 0; 1; 0; 0; 0; 0; 0; 0; 0; 0; 0; 0; 0; 0; 0; 0; 0; 0; 0; 0; 0; 0; 0; 0; 0; 0; 0; 0; 0; 0; 0; 0; 0; 0; 0; 0; 0; 0; 0; 0; 0; 0; 0; 0; 0; 0; 0; 0; 0; 0; 0; 0; 0; 0; 0; 0; 0; 0; 0; 0; 0; 0; 0; 0; 0; 0; 0; 4; 0; 0; 0; 0; 0; 0; 0; 0; 0; 0; 0; 0; 0; 0; 0; 0; 0; 0; 0; 0; 0; 0; 0; 0; 0; 0; 0; 0; 0; 0; 0; 0; 0; 0; 0; 0; 0; 0; 0; 0; 0; 0; 0; 0; 0; 0; 0; 0; 0; 0; 0; 0; 0; 0; 0; 0; 0; 0; 0; 0; 0; 0; 0; 0; 0; 0; 0; 0; 0; 0; 0; 0; 0; 0; 0; 0; 0; 0; 0; 0; 0; 0; 0; 0; 0; 0; 0; 0; 0; 0; 0; 0; 0; 0; 0; 0; 0; 0; 0; 0; 0; 0; 0; 0; 0; 0; 0; 0; 0; 0; 0; 0; 0; 0; 0; 0; 0; 0; 0; 0; 0; 0; 0; 0; 0; 0; 0; 0; 0; 0; 0; 0; 0; 0; 0; 0; 0; 0; 0; 0; 0; 0; 0; 0; 0], [0; 0; 0; 0; 0; 0; 0; 0; 0; 0; 0; 0; 0; 0; 0; 0; 0; 0; 0; 0; 0; 0; 0; 0; 0; 0; 0; 0; 0; 0; 0; 0; 0; 32; 0; 0; 0; 0; 0; 0; 0; 0; 0; 0; 0; 0; 0; 0; 0; 0; 0; 0; 0; 0; 0; 0; 0; 0; 0; 0; 0; 0; 0; 0; 0; 0; 0; 0; 0; 0; 0; 0; 0; 0; 0; 0; 0; 0; 0; 0; 0; 0; 4; 0; 0; 0; 0; 0; 0; 0; 0; 0; 0; 0; 0; 0; 0; 0; 0; 0; 0; 0; 0; 0; 0; 0; 0; 0; 0; 0; 0; 0; 0; 0; 0; 0; 0; 0; 0; 0; 0; 0; 0; 0; 0; 0; 0; 0; 0; 0; 0; 0; 0; 0; 0; 0; 0; 0; 0; 0; 0; 0; 0; 0; 0; 0; 0; 0; 0; 0; 0; 0; 0; 0; 0; 0; 0; 0; 0; 0; 0; 0; 0; 0; 0; 0; 0; 0; 0; 0; 0; 0; 0; 0; 0; 0; 0; 0; 0; 0; 0; 0; 0; 0; 0; 0; 0; 0; 0; 0; 0; 0; 0; 0; 0; 0; 0; 0; 0; 0; 0; 0; 0; 0; 0; 0; 0; 0; 0; 0; 0; 0; 0; 0; 0; 0; 0; 0; 0; 0; 0; 0; 0; 0; 0; 0; 0; 0; 0; 0; 0; 0; 0; 0; 0; 0; 0; 0; 0; 0; 0; 0; 0; 0; 0; 0; 0; 0; 0; 0; 0; 0; 0; 0; 0; 0]);
    Some ([0; 0; 0; 0; 4; 0; 0; 0; 1; 0; 0; 0; 0; 0; 0; 0; 4; 0; 0; 0; 3; 0; 0; 0; 2; 0; 0; 0; 2; 0; 0; 0], [0; 0; 0; 0; 7; 0; 0; 0; 6; 0; 0; 0; 4; 0; 0; 0; 6; 0; 0; 0; 4; 0; 0; 0; 0; 0; 0; 0; 5; 0; 0; 0]);
    Some ([0; 0; 0; 32; 0; 0; 0; 160; 0; 0; 0; 0; 0; 0; 0; 160; 0; 0; 0; 160; 0; 0; 0; 96; 0; 0; 0; 32], [0; 0; 0; 64; 0; 0; 0; 0; 0; 0; 0; 64; 0; 0; 0; 32; 0; 0; 0; 224; 0; 0; 0; 96; 0; 0; 0; 192; 0; 0; 0; 0]);
    Some ([0; 0; 0; 0; 1; 0; 0; 0; 0; 0; 0; 0; 1; 0; 0; 0; 0; 0; 0; 0; 1; 0; 0; 0; 1; 0; 0; 0; 1; 0; 0; 0; 0; 0; 0; 0; 1; 0; 0; 0; 0; 0; 0; 0; 1; 0; 0; 0; 1; 0; 0; 0; 0; 0; 0; 0; 1; 0; 0; 0; 0; 0; 0; 0; 0; 0; 0; 0], [0; 0; 0; 0; 0; 0; 0; 0; 0; 0; 0; 0; 1; 0; 0; 0; 0; 0; 0; 0; 1; 0; 0; 0; 0; 0; 0; 0; 0; 0; 0; 0; 0; 0; 0; 0; 1; 0; 0; 0; 0; 0; 0; 0; 0; 0; 0; 0; 1; 0; 0; 0; 0; 0; 0; 0; 0; 0; 0; 0; 1; 0; 0; 0; 0; 0; 0; 0; 1; 0; 0; 0; 0; 0; 0; 0; 1; 0; 0; 0]);
    Some ([0; 0; 0; 128; 0; 0; 0; 128; 0; 0; 0; 128; 0; 0; 0; 0; 0; 0; 0; 0; 0; 0; 0; 128; 0; 0; 0; 0; 0; 0; 0; 128; 0; 0; 0; 0; 0; 0; 0; 0; 0; 0; 0; 0; 0; 0; 0; 128; 0; 0; 0; 128; 0; 0; 0; 0; 0; 0; 0; 0; 0; 0; 0; 128; 0; 0; 0; 0; 0; 0; 0; 0; 0; 0; 0; 128; 0; 0; 0; 0], [0; 0; 0; 0; 0; 0; 0; 128; 0; 0; 0; 128; 0; 0; 0; 128; 0; 0; 0; 128; 0; 0; 0; 0; 0; 0; 0; 128; 0; 0; 0; 0; 0; 0; 0; 128; 0; 0; 0; 128; 0; 0; 0; 0; 0; 0; 0; 128; 0; 0; 0; 0; 0; 0; 0; 0; 0; 0; 0; 128; 0; 0; 0; 0; 0; 0; 0; 0; 0; 0; 0; 128; 0; 0; 0; 128; 0; 0; 0; 0]);
    Some ([0; 0; 0; 0; 5; 0; 0; 0; 0; 0; 0; 192; 7; 0; 0; 0; 3; 0; 0; 0; 3; 0; 0; 0], [0; 0; 0; 192; 0; 0; 0; 160; 0; 0; 0; 128; 3; 0; 0; 0; 3; 0; 0; 0; 0; 0; 0; 224]);
    Some ([234; 190; 154], [7; 129; 205]);
    Some ([91; 0; 0; 0; 0; 205; 0; 0; 0; 0], [0; 0; 0; 0; 238; 0; 0; 54])]);
  ("CrapWow"%string, [
    Some ([70; 111; 111; 100; 111; 110; 109; 66; 97; 114], [70; 111; 111; 115; 48; 52; 76; 66; 97; 114]);
    Some ([70; 111; 111; 66; 97; 114; 48; 106; 110; 74], [70; 111; 111; 66; 97; 114; 57; 102; 66; 99]);
    Some ([51; 108; 113; 48; 70; 111; 111; 66; 97; 114], [54; 77; 110; 51; 70; 111; 111; 66; 97; 114]);
    Some ([66; 136; 0; 128], [0; 0; 74; 140]);
    Some ([81; 0; 0; 18; 16], [40; 4; 64; 0; 144]);
    Some ([20; 2; 0; 64; 0; 16], [6; 128; 0; 0; 0; 130]);
    Some ([0; 69; 0; 32; 0; 0; 8], [16; 1; 0; 0; 2; 4; 32]);
    Some ([8; 16; 6; 0; 0; 0; 32; 0], [0; 0; 128; 16; 16; 1; 0; 0]);
    Some ([64; 0; 0; 0; 0; 136; 0; 0; 64; 0; 0; 0], [0; 0; 0; 128; 0; 136; 0; 0; 0; 0; 0; 128]);
    Some ([0; 0; 0; 0; 0; 0; 0; 0; 128; 0; 0; 0; 0; 64; 0; 0; 0; 0; 0; 0; 0; 0; 0; 0; 128; 0; 0; 0; 0; 0; 0; 0], [0; 0; 0; 0; 0; 0; 0; 0; 0; 0; 8; 0; 0; 0; 0; 0; 0; 0; 0; 0; 0; 64; 0; 0; 0; 0; 8; 0; 0; 0; 0; 0]);
    Some ([0; 0; 0; 0; 0; 0; 0; 0; 0; 0; 0; 0; 0; 0; 0; 0; 0; 0; 0; 0; 0; 0; 0; 0; 0; 0; 0; 0; 0; 0; 0; 0; 0; 0; 0; 0; 0; 0; 0; 0; 0; 0; 0; 0; 0; 0; 0; 0; 0; 0; 0; 0; 0; 0; 0; 0; 0; 0; 0; 0; 0; 0; 0; 0; 0; 0; 0; 0; 0; 0; 0; 2; 0; 0; 0; 0; 0; 0; 0; 0; 0; 0; 0; 0; 0; 0; 0; 0; 0; 0; 0; 0; 0; 0; 0; 0; 0; 0; 0; 0; 0; 0; 0; 0; 0; 0; 0; 0; 0; 0; 0; 0; 0; 0; 0; 0; 0; 0; 0; 0; 0; 0; 0; 0; 0; 0; 0; 0; 0; 0; 0; 0; 0; 0; 0; 0; 0; 0; 0; 0; 0; 0; 0; 0; 0; 0; 0; 0; 0; 0; 0; 0; 0; 0; 0; 0; 0; 0; 0; 0; 0; 0; 0; 0; 0; 0; 0; 0; 0; 0; 0; 0; 0; 0; 0; 0; 0; 0; 0; 0; 0; 0; 0; 0; 0; 0; 0; 0; 0; 0; 0; 0; 0; 0; 0; 0; 0; 0; 0; 0; 0; 0; 0; 0; 0; 0; 0; 0; 0; 0; 0; 0; 0; 0; 0; 0; 0; 0; 0; 0; 0; 0; 0; 0; 0; 0; 0; 0; 32; 0; 0; 0; 0; 0; 0; 0; 0; 0; 0; 0; 0; 0; 0; 0; 0; 0; 0; 0; 0; 0; 0; 0; 0; 0; 0; 0], [0; 0; 0; 0; 0; 0; 0; 2; 0; 0; 0; 0; 0; 0; 0; 0; 0; 0; 0; 0; 0; 0; 0; 0; 0; 0; 0; 0; 0; 0; 0; 0; 0; 0; 0; 0; 0; 0; 0; 0; 0; 0; 0; 0; 0; 0; 0; 0; 0; 0; 0; 0; 0; 0; 0; 0; 0; 0; 0; 0; 0; 0; 0; 0; 0; 0; 0; 0; 0; 0; 0; 0; 0; 0; 0; 0; 0; 0; 0; 0; 0; 0; 0; 0; 0; 0; 0; 0; 0; 0; 0; 0; 32; 0; 0; 0; 0; 0; 0; 0; 0; 0; 0; 0; 0; 0; 0; 0; 0; 0; 0; 0; 0; 0; 0; 0; 0; 0; 0; 0; 0; 0; 0; 0; 0; 0; 0; 0; 0; 0; 0; 0; 0; 0; 0; 0; 0; 0; 0; 0; 0; 0; 0; 0; 0; 0; 0; 0; 0; 0; 0; 0; 0; 0; 0; 0; 0; 0; 0; 0; 0; 0; 0; 0; 0; 0; 0; 0; 0; 0; 0; 0; 0; 0; 0; 0; 0; 0; 0; 0; 0; 0; 0; 0; 0; 0; 0; 0; 0; 0; 0; 0; 0; 0; 0; 0; 0; 0; 0; 0; 0; 0; 0; 0; 0; 0; 0; 0; 0; 0; 0; 0; 0; 0; 0; 0; 0; 0; 0; 0; 0; 0; 0; 0; 0; 0; 0; 0; 0; 0; 0; 0; 0; 0; 0; 0; 0; 0; 0; 0; 0; 0; 0; 0; 0; 0; 0; 0; 0; 0; 0; 0; 0; 0; 0; 0]);
    Some ([2; 0; 0; 0; 3; 0; 0; 0; 5; 0; 0; 0; 5; 0; 0; 0; 2; 0; 0; 0; 0; 0; 0; 0; 7; 0; 0; 0; 6; 0; 0; 0], [5; 0; 0; 0; 3; 0; 0; 0; 7; 0; 0; 0; 0; 0; 0; 0; 0; 0; 0; 0; 6; 0; 0; 0; 0; 0; 0; 0; 5; 0; 0; 0]);
    Some ([0; 0; 0; 64; 0; 0; 0; 96; 0; 0; 0; 160; 0; 0; 0; 160; 0; 0; 0; 64; 0; 0; 0; 0; 0; 0; 0; 224; 0; 0; 0; 192], [0; 0; 0; 160; 0; 0; 0; 96; 0; 0; 0; 224; 0; 0; 0; 0; 0; 0; 0; 0; 0; 0; 0; 192; 0; 0; 0; 0; 0; 0; 0; 160]);
    Some ([1; 0; 0; 0; 0; 0; 0; 0; 0; 0; 0; 0; 0; 0; 0; 0; 0; 0; 0; 0; 1; 0; 0; 0; 0; 0; 0; 0; 0; 0; 0; 0; 1; 0; 0; 0; 1; 0; 0; 0; 1; 0; 0; 0; 0; 0; 0; 0; 1; 0; 0; 0; 0; 0; 0; 0; 1; 0; 0; 0; 1; 0; 0; 0; 0; 0; 0; 0; 1; 0; 0; 0; 1; 0; 0; 0; 1; 0; 0; 0], [1; 0; 0; 0; 1; 0; 0; 0; 0; 0; 0; 0; 1; 0; 0; 0; 0; 0; 0; 0; 0; 0; 0; 0; 1; 0; 0; 0; 1; 0; 0; 0; 1; 0; 0; 0; 1; 0; 0; 0; 1; 0; 0; 0; 1; 0; 0; 0; 0; 0; 0; 0; 0; 0; 0; 0; 0; 0; 0; 0; 0; 0; 0; 0; 1; 0; 0; 0; 0; 0; 0; 0; 1; 0; 0; 0; 0; 0; 0; 0]);
    Some ([0; 0; 0; 128; 0; 0; 0; 0; 0; 0; 0; 0; 0; 0; 0; 0; 0; 0; 0; 0; 0; 0; 0; 128; 0; 0; 0; 0; 0; 0; 0; 0; 0; 0; 0; 128; 0; 0; 0; 128; 0; 0; 0; 128; 0; 0; 0; 0; 0; 0; 0; 128; 0; 0; 0; 0; 0; 0; 0; 128; 0; 0; 0; 128; 0; 0; 0; 0; 0; 0; 0; 128; 0; 0; 0; 128; 0; 0; 0; 128], [0; 0; 0; 128; 0; 0; 0; 128; 0; 0; 0; 0; 0; 0; 0; 128; 0; 0; 0; 0; 0; 0; 0; 0; 0; 0; 0; 128; 0; 0; 0; 128; 0; 0; 0; 128; 0; 0; 0; 128; 0; 0; 0; 128; 0; 0; 0; 128; 0; 0; 0; 0; 0; 0; 0; 0; 0; 0; 0; 0; 0; 0; 0; 0; 0; 0; 0; 128; 0; 0; 0; 0; 0; 0; 0; 128; 0; 0; 0; 0]);
    Some ([0; 0; 0; 224; 0; 0; 0; 0; 0; 0; 0; 64; 0; 0; 0; 0; 0; 0; 0; 0; 5; 0; 0; 0], [0; 0; 0; 64; 2; 0; 0; 0; 0; 0; 0; 224; 2; 0; 0; 0; 0; 0; 0; 0; 5; 0; 0; 0]);
    Some ([157; 212; 177], [218; 166; 165]);
    Some ([0; 0; 0; 0; 0; 0; 0; 0; 0; 161; 0; 0; 0], [0; 161; 0; 0; 0; 0; 0; 0; 0; 0; 0; 0; 0])]);
  ("MetroHash64-1"%string, [
    None;
    None;
    None;
    Some ([0; 0; 0; 0], [0; 0; 0; 1]);
    None;
    None;
    None;
    None;
    Some ([7; 0; 0; 0; 0; 0; 0; 0; 0; 0; 0; 0], [7; 0; 0; 0; 0; 0; 0; 0; 0; 0; 0; 128]);
    None;
    None;
    None;
    Some ([0; 0; 0; 0], [0; 0; 0; 32]);
    None;
    Some ([0; 0; 0; 0], [0; 0; 0; 128]);
    Some ([0; 0; 0; 128], [0; 0; 0; 224]);
    None;
    Some ([9; 0; 0; 0], [9; 0; 0; 5])])].
Definition cyclic_pairs : list (string * (N * N)) :=
  [("murmur332"%string, (19297, 72795)); ("j332c"%string, (61567, 181176)); ("j332b"%string, (21192, 56012)); ("j232"%string, (7372, 20749)); ("j264l"%string, (1207, 30502)); ("j264h"%string, (24514, 45351)); ("j264xor"%string, (4605, 51643)); ("spooky32"%string, (44186, 69570)); ("sbox"%string, (19730, 23594)); ("FarmHash32"%string, (124848, 145800)); ("CrapWow"%string, (0, 1))].
Definition window_pairs : list (string * (nat * nat * (N * N))) :=
  [("murmur332"%string, (64%nat, 21%nat, (8080, 63217))); ("j332c"%string, (32%nat, 2%nat, (37506, 41945))); ("j332b"%string, (32%nat, 0%nat, (29098, 56933))); ("j232"%string, (32%nat, 0%nat, (3784, 20723))); ("j264l"%string, (32%nat, 1%nat, (29110, 52487))); ("j264h"%string, (32%nat, 0%nat, (5118, 5122))); ("j264xor"%string, (32%nat, 2%nat, (9581, 55934))); ("spooky32"%string, (32%nat, 1%nat, (7113, 36680))); ("sbox"%string, (32%nat, 0%nat, (37360, 54633))); ("FarmHash32"%string, (32%nat, 0%nat, (23476, 40670))); ("CrapWow"%string, (32%nat, 2%nat, (47899, 62608)))].
(** Seeds that give "hello" the same hash. *)
Definition seed_pairs : list (string * (N * N)) :=
  [("j232", (27061, 46968)); ("j264l", (6232, 43254)); ("j264h", (5103, 6604)); ("j264xor", (12616, 31668)); ("spooky32", (3712, 25112))]%string.

(** Generated by tools/ckeccak_prog.py from keccak/KeccakF-1600-64.macros.h and
    KeccakF-1600-unrolling.macros.h; see there for the numbering of the variables. *)
From Coq Require Import NArith List.
From Verif Require Import SLP.
Import ListNotations.
Open Scope nat_scope.

(** ROL64, KeccakF-1600-opt64.c:86. *)
Definition ROL64 (a : nat) (offset : N) : exp := E2 BXor (E1 (UShl offset) (EV a)) (E1 (UShr (64 - offset)) (EV a)).
(** prepareTheta, KeccakF-1600-64.macros.h:35-40. *)
Definition prepareTheta : prog :=
  [Set_ 50 (E2 BXor (E2 BXor (E2 BXor (E2 BXor (EV 0) (EV 5)) (EV 10)) (EV 15)) (EV 20));
   Set_ 51 (E2 BXor (E2 BXor (E2 BXor (E2 BXor (EV 1) (EV 6)) (EV 11)) (EV 16)) (EV 21));
   Set_ 52 (E2 BXor (E2 BXor (E2 BXor (E2 BXor (EV 2) (EV 7)) (EV 12)) (EV 17)) (EV 22));
   Set_ 53 (E2 BXor (E2 BXor (E2 BXor (E2 BXor (EV 3) (EV 8)) (EV 13)) (EV 18)) (EV 23));
   Set_ 54 (E2 BXor (E2 BXor (E2 BXor (E2 BXor (EV 4) (EV 9)) (EV 14)) (EV 19)) (EV 24))].
(** thetaRhoPiChiIotaPrepareTheta, KeccakF-1600-64.macros.h:45-156. *)
Definition thetaRhoPiChiIotaPrepareTheta (c : N) (a e : nat) : prog :=
  [Set_ 55 (E2 BXor (EV 54) (ROL64 51 1));
   Set_ 56 (E2 BXor (EV 50) (ROL64 52 1));
   Set_ 57 (E2 BXor (EV 51) (ROL64 53 1));
   Set_ 58 (E2 BXor (EV 52) (ROL64 54 1));
   Set_ 59 (E2 BXor (EV 53) (ROL64 50 1));
   Set_ (a + 0) (E2 BXor (EV (a + 0)) (EV 55));
   Set_ 60 (EV (a + 0));
   Set_ (a + 6) (E2 BXor (EV (a + 6)) (EV 56));
   Set_ 61 (ROL64 (a + 6) 44);
   Set_ (a + 12) (E2 BXor (EV (a + 12)) (EV 57));
   Set_ 62 (ROL64 (a + 12) 43);
   Set_ (a + 18) (E2 BXor (EV (a + 18)) (EV 58));
   Set_ 63 (ROL64 (a + 18) 21);
   Set_ (a + 24) (E2 BXor (EV (a + 24)) (EV 59));
   Set_ 64 (ROL64 (a + 24) 14);
   Set_ (e + 0) (E2 BXor (EV 60) (E2 BOr (EV 61) (EV 62)));
   Set_ (e + 0) (E2 BXor (EV (e + 0)) (EC c));
   Set_ 50 (EV (e + 0));
   Set_ (e + 1) (E2 BXor (EV 61) (E2 BOr (E1 UNot (EV 62)) (EV 63)));
   Set_ 51 (EV (e + 1));
   Set_ (e + 2) (E2 BXor (EV 62) (E2 BAnd (EV 63) (EV 64)));
   Set_ 52 (EV (e + 2));
   Set_ (e + 3) (E2 BXor (EV 63) (E2 BOr (EV 64) (EV 60)));
   Set_ 53 (EV (e + 3));
   Set_ (e + 4) (E2 BXor (EV 64) (E2 BAnd (EV 60) (EV 61)));
   Set_ 54 (EV (e + 4));
   Set_ (a + 3) (E2 BXor (EV (a + 3)) (EV 58));
   Set_ 65 (ROL64 (a + 3) 28);
   Set_ (a + 9) (E2 BXor (EV (a + 9)) (EV 59));
   Set_ 66 (ROL64 (a + 9) 20);
   Set_ (a + 10) (E2 BXor (EV (a + 10)) (EV 55));
   Set_ 67 (ROL64 (a + 10) 3);
   Set_ (a + 16) (E2 BXor (EV (a + 16)) (EV 56));
   Set_ 68 (ROL64 (a + 16) 45);
   Set_ (a + 22) (E2 BXor (EV (a + 22)) (EV 57));
   Set_ 69 (ROL64 (a + 22) 61);
   Set_ (e + 5) (E2 BXor (EV 65) (E2 BOr (EV 66) (EV 67)));
   Set_ 50 (E2 BXor (EV 50) (EV (e + 5)));
   Set_ (e + 6) (E2 BXor (EV 66) (E2 BAnd (EV 67) (EV 68)));
   Set_ 51 (E2 BXor (EV 51) (EV (e + 6)));
   Set_ (e + 7) (E2 BXor (EV 67) (E2 BOr (EV 68) (E1 UNot (EV 69))));
   Set_ 52 (E2 BXor (EV 52) (EV (e + 7)));
   Set_ (e + 8) (E2 BXor (EV 68) (E2 BOr (EV 69) (EV 65)));
   Set_ 53 (E2 BXor (EV 53) (EV (e + 8)));
   Set_ (e + 9) (E2 BXor (EV 69) (E2 BAnd (EV 65) (EV 66)));
   Set_ 54 (E2 BXor (EV 54) (EV (e + 9)));
   Set_ (a + 1) (E2 BXor (EV (a + 1)) (EV 56));
   Set_ 70 (ROL64 (a + 1) 1);
   Set_ (a + 7) (E2 BXor (EV (a + 7)) (EV 57));
   Set_ 71 (ROL64 (a + 7) 6);
   Set_ (a + 13) (E2 BXor (EV (a + 13)) (EV 58));
   Set_ 72 (ROL64 (a + 13) 25);
   Set_ (a + 19) (E2 BXor (EV (a + 19)) (EV 59));
   Set_ 73 (ROL64 (a + 19) 8);
   Set_ (a + 20) (E2 BXor (EV (a + 20)) (EV 55));
   Set_ 74 (ROL64 (a + 20) 18);
   Set_ (e + 10) (E2 BXor (EV 70) (E2 BOr (EV 71) (EV 72)));
   Set_ 50 (E2 BXor (EV 50) (EV (e + 10)));
   Set_ (e + 11) (E2 BXor (EV 71) (E2 BAnd (EV 72) (EV 73)));
   Set_ 51 (E2 BXor (EV 51) (EV (e + 11)));
   Set_ (e + 12) (E2 BXor (EV 72) (E2 BAnd (E1 UNot (EV 73)) (EV 74)));
   Set_ 52 (E2 BXor (EV 52) (EV (e + 12)));
   Set_ (e + 13) (E2 BXor (E1 UNot (EV 73)) (E2 BOr (EV 74) (EV 70)));
   Set_ 53 (E2 BXor (EV 53) (EV (e + 13)));
   Set_ (e + 14) (E2 BXor (EV 74) (E2 BAnd (EV 70) (EV 71)));
   Set_ 54 (E2 BXor (EV 54) (EV (e + 14)));
   Set_ (a + 4) (E2 BXor (EV (a + 4)) (EV 59));
   Set_ 75 (ROL64 (a + 4) 27);
   Set_ (a + 5) (E2 BXor (EV (a + 5)) (EV 55));
   Set_ 76 (ROL64 (a + 5) 36);
   Set_ (a + 11) (E2 BXor (EV (a + 11)) (EV 56));
   Set_ 77 (ROL64 (a + 11) 10);
   Set_ (a + 17) (E2 BXor (EV (a + 17)) (EV 57));
   Set_ 78 (ROL64 (a + 17) 15);
   Set_ (a + 23) (E2 BXor (EV (a + 23)) (EV 58));
   Set_ 79 (ROL64 (a + 23) 56);
   Set_ (e + 15) (E2 BXor (EV 75) (E2 BAnd (EV 76) (EV 77)));
   Set_ 50 (E2 BXor (EV 50) (EV (e + 15)));
   Set_ (e + 16) (E2 BXor (EV 76) (E2 BOr (EV 77) (EV 78)));
   Set_ 51 (E2 BXor (EV 51) (EV (e + 16)));
   Set_ (e + 17) (E2 BXor (EV 77) (E2 BOr (E1 UNot (EV 78)) (EV 79)));
   Set_ 52 (E2 BXor (EV 52) (EV (e + 17)));
   Set_ (e + 18) (E2 BXor (E1 UNot (EV 78)) (E2 BAnd (EV 79) (EV 75)));
   Set_ 53 (E2 BXor (EV 53) (EV (e + 18)));
   Set_ (e + 19) (E2 BXor (EV 79) (E2 BOr (EV 75) (EV 76)));
   Set_ 54 (E2 BXor (EV 54) (EV (e + 19)));
   Set_ (a + 2) (E2 BXor (EV (a + 2)) (EV 57));
   Set_ 80 (ROL64 (a + 2) 62);
   Set_ (a + 8) (E2 BXor (EV (a + 8)) (EV 58));
   Set_ 81 (ROL64 (a + 8) 55);
   Set_ (a + 14) (E2 BXor (EV (a + 14)) (EV 59));
   Set_ 82 (ROL64 (a + 14) 39);
   Set_ (a + 15) (E2 BXor (EV (a + 15)) (EV 55));
   Set_ 83 (ROL64 (a + 15) 41);
   Set_ (a + 21) (E2 BXor (EV (a + 21)) (EV 56));
   Set_ 84 (ROL64 (a + 21) 2);
   Set_ (e + 20) (E2 BXor (EV 80) (E2 BAnd (E1 UNot (EV 81)) (EV 82)));
   Set_ 50 (E2 BXor (EV 50) (EV (e + 20)));
   Set_ (e + 21) (E2 BXor (E1 UNot (EV 81)) (E2 BOr (EV 82) (EV 83)));
   Set_ 51 (E2 BXor (EV 51) (EV (e + 21)));
   Set_ (e + 22) (E2 BXor (EV 82) (E2 BAnd (EV 83) (EV 84)));
   Set_ 52 (E2 BXor (EV 52) (EV (e + 22)));
   Set_ (e + 23) (E2 BXor (EV 83) (E2 BOr (EV 84) (EV 80)));
   Set_ 53 (E2 BXor (EV 53) (EV (e + 23)));
   Set_ (e + 24) (E2 BXor (EV 84) (E2 BAnd (EV 80) (EV 81)));
   Set_ 54 (E2 BXor (EV 54) (EV (e + 24)))].
(** thetaRhoPiChiIota, KeccakF-1600-64.macros.h:161-247. *)
Definition thetaRhoPiChiIota (c : N) (a e : nat) : prog :=
  [Set_ 55 (E2 BXor (EV 54) (ROL64 51 1));
   Set_ 56 (E2 BXor (EV 50) (ROL64 52 1));
   Set_ 57 (E2 BXor (EV 51) (ROL64 53 1));
   Set_ 58 (E2 BXor (EV 52) (ROL64 54 1));
   Set_ 59 (E2 BXor (EV 53) (ROL64 50 1));
   Set_ (a + 0) (E2 BXor (EV (a + 0)) (EV 55));
   Set_ 60 (EV (a + 0));
   Set_ (a + 6) (E2 BXor (EV (a + 6)) (EV 56));
   Set_ 61 (ROL64 (a + 6) 44);
   Set_ (a + 12) (E2 BXor (EV (a + 12)) (EV 57));
   Set_ 62 (ROL64 (a + 12) 43);
   Set_ (a + 18) (E2 BXor (EV (a + 18)) (EV 58));
   Set_ 63 (ROL64 (a + 18) 21);
   Set_ (a + 24) (E2 BXor (EV (a + 24)) (EV 59));
   Set_ 64 (ROL64 (a + 24) 14);
   Set_ (e + 0) (E2 BXor (EV 60) (E2 BOr (EV 61) (EV 62)));
   Set_ (e + 0) (E2 BXor (EV (e + 0)) (EC c));
   Set_ (e + 1) (E2 BXor (EV 61) (E2 BOr (E1 UNot (EV 62)) (EV 63)));
   Set_ (e + 2) (E2 BXor (EV 62) (E2 BAnd (EV 63) (EV 64)));
   Set_ (e + 3) (E2 BXor (EV 63) (E2 BOr (EV 64) (EV 60)));
   Set_ (e + 4) (E2 BXor (EV 64) (E2 BAnd (EV 60) (EV 61)));
   Set_ (a + 3) (E2 BXor (EV (a + 3)) (EV 58));
   Set_ 65 (ROL64 (a + 3) 28);
   Set_ (a + 9) (E2 BXor (EV (a + 9)) (EV 59));
   Set_ 66 (ROL64 (a + 9) 20);
   Set_ (a + 10) (E2 BXor (EV (a + 10)) (EV 55));
   Set_ 67 (ROL64 (a + 10) 3);
   Set_ (a + 16) (E2 BXor (EV (a + 16)) (EV 56));
   Set_ 68 (ROL64 (a + 16) 45);
   Set_ (a + 22) (E2 BXor (EV (a + 22)) (EV 57));
   Set_ 69 (ROL64 (a + 22) 61);
   Set_ (e + 5) (E2 BXor (EV 65) (E2 BOr (EV 66) (EV 67)));
   Set_ (e + 6) (E2 BXor (EV 66) (E2 BAnd (EV 67) (EV 68)));
   Set_ (e + 7) (E2 BXor (EV 67) (E2 BOr (EV 68) (E1 UNot (EV 69))));
   Set_ (e + 8) (E2 BXor (EV 68) (E2 BOr (EV 69) (EV 65)));
   Set_ (e + 9) (E2 BXor (EV 69) (E2 BAnd (EV 65) (EV 66)));
   Set_ (a + 1) (E2 BXor (EV (a + 1)) (EV 56));
   Set_ 70 (ROL64 (a + 1) 1);
   Set_ (a + 7) (E2 BXor (EV (a + 7)) (EV 57));
   Set_ 71 (ROL64 (a + 7) 6);
   Set_ (a + 13) (E2 BXor (EV (a + 13)) (EV 58));
   Set_ 72 (ROL64 (a + 13) 25);
   Set_ (a + 19) (E2 BXor (EV (a + 19)) (EV 59));
   Set_ 73 (ROL64 (a + 19) 8);
   Set_ (a + 20) (E2 BXor (EV (a + 20)) (EV 55));
   Set_ 74 (ROL64 (a + 20) 18);
   Set_ (e + 10) (E2 BXor (EV 70) (E2 BOr (EV 71) (EV 72)));
   Set_ (e + 11) (E2 BXor (EV 71) (E2 BAnd (EV 72) (EV 73)));
   Set_ (e + 12) (E2 BXor (EV 72) (E2 BAnd (E1 UNot (EV 73)) (EV 74)));
   Set_ (e + 13) (E2 BXor (E1 UNot (EV 73)) (E2 BOr (EV 74) (EV 70)));
   Set_ (e + 14) (E2 BXor (EV 74) (E2 BAnd (EV 70) (EV 71)));
   Set_ (a + 4) (E2 BXor (EV (a + 4)) (EV 59));
   Set_ 75 (ROL64 (a + 4) 27);
   Set_ (a + 5) (E2 BXor (EV (a + 5)) (EV 55));
   Set_ 76 (ROL64 (a + 5) 36);
   Set_ (a + 11) (E2 BXor (EV (a + 11)) (EV 56));
   Set_ 77 (ROL64 (a + 11) 10);
   Set_ (a + 17) (E2 BXor (EV (a + 17)) (EV 57));
   Set_ 78 (ROL64 (a + 17) 15);
   Set_ (a + 23) (E2 BXor (EV (a + 23)) (EV 58));
   Set_ 79 (ROL64 (a + 23) 56);
   Set_ (e + 15) (E2 BXor (EV 75) (E2 BAnd (EV 76) (EV 77)));
   Set_ (e + 16) (E2 BXor (EV 76) (E2 BOr (EV 77) (EV 78)));
   Set_ (e + 17) (E2 BXor (EV 77) (E2 BOr (E1 UNot (EV 78)) (EV 79)));
   Set_ (e + 18) (E2 BXor (E1 UNot (EV 78)) (E2 BAnd (EV 79) (EV 75)));
   Set_ (e + 19) (E2 BXor (EV 79) (E2 BOr (EV 75) (EV 76)));
   Set_ (a + 2) (E2 BXor (EV (a + 2)) (EV 57));
   Set_ 80 (ROL64 (a + 2) 62);
   Set_ (a + 8) (E2 BXor (EV (a + 8)) (EV 58));
   Set_ 81 (ROL64 (a + 8) 55);
   Set_ (a + 14) (E2 BXor (EV (a + 14)) (EV 59));
   Set_ 82 (ROL64 (a + 14) 39);
   Set_ (a + 15) (E2 BXor (EV (a + 15)) (EV 55));
   Set_ 83 (ROL64 (a + 15) 41);
   Set_ (a + 21) (E2 BXor (EV (a + 21)) (EV 56));
   Set_ 84 (ROL64 (a + 21) 2);
   Set_ (e + 20) (E2 BXor (EV 80) (E2 BAnd (E1 UNot (EV 81)) (EV 82)));
   Set_ (e + 21) (E2 BXor (E1 UNot (EV 81)) (E2 BOr (EV 82) (EV 83)));
   Set_ (e + 22) (E2 BXor (EV 82) (E2 BAnd (EV 83) (EV 84)));
   Set_ (e + 23) (E2 BXor (EV 83) (E2 BOr (EV 84) (EV 80)));
   Set_ (e + 24) (E2 BXor (EV 84) (E2 BAnd (EV 80) (EV 81)))].
(** KeccakF1600RoundConstants, KeccakF-1600-64.macros.h:460-484. *)
Definition KeccakF1600RoundConstants : list N := [0x0000000000000001; 0x0000000000008082; 0x800000000000808a; 0x8000000080008000;
  0x000000000000808b; 0x0000000080000001; 0x8000000080008081; 0x8000000000008009;
  0x000000000000008a; 0x0000000000000088; 0x0000000080008009; 0x000000008000000a;
  0x000000008000808b; 0x800000000000008b; 0x8000000000008089; 0x8000000000008003;
  0x8000000000008002; 0x8000000000000080; 0x000000000000800a; 0x800000008000000a;
  0x8000000080008081; 0x8000000000008080; 0x0000000080000001; 0x8000000080008008]%N.
(** copyFromStateAndXor576bits, KeccakF-1600-64.macros.h:486-511: lane i is state[i]^input[i] (true) or state[i]. *)
Definition xored576 : list bool := [true; true; true; true; true; true; true; true; true; false; false; false; false; false; false; false; false; false; false; false; false; false; false; false; false].
(** copyFromStateAndXor832bits, KeccakF-1600-64.macros.h:513-538: lane i is state[i]^input[i] (true) or state[i]. *)
Definition xored832 : list bool := [true; true; true; true; true; true; true; true; true; true; true; true; true; false; false; false; false; false; false; false; false; false; false; false; false].
(** copyFromStateAndXor1024bits, KeccakF-1600-64.macros.h:540-565: lane i is state[i]^input[i] (true) or state[i]. *)
Definition xored1024 : list bool := [true; true; true; true; true; true; true; true; true; true; true; true; true; true; true; true; false; false; false; false; false; false; false; false; false].
(** copyFromStateAndXor1088bits, KeccakF-1600-64.macros.h:567-592: lane i is state[i]^input[i] (true) or state[i]. *)
Definition xored1088 : list bool := [true; true; true; true; true; true; true; true; true; true; true; true; true; true; true; true; true; false; false; false; false; false; false; false; false].
(** copyFromStateAndXor1152bits, KeccakF-1600-64.macros.h:594-619: lane i is state[i]^input[i] (true) or state[i]. *)
Definition xored1152 : list bool := [true; true; true; true; true; true; true; true; true; true; true; true; true; true; true; true; true; true; false; false; false; false; false; false; false].
(** copyFromStateAndXor1344bits, KeccakF-1600-64.macros.h:621-646: lane i is state[i]^input[i] (true) or state[i]. *)
Definition xored1344 : list bool := [true; true; true; true; true; true; true; true; true; true; true; true; true; true; true; true; true; true; true; true; true; false; false; false; false].
(* copyFromState, KeccakF-1600-64.macros.h:648-673, copies lane i from/to state[i] (checked by the script). *)
(* copyToState, KeccakF-1600-64.macros.h:675-700, copies lane i from/to state[i] (checked by the script). *)
(** rounds, KeccakF-1600-unrolling.macros.h:15-41, without the final copyToState(state, A). *)
Definition rounds24 : list prog :=
  [prepareTheta;
   thetaRhoPiChiIotaPrepareTheta (nth 0 KeccakF1600RoundConstants 0%N) 0 25;
   thetaRhoPiChiIotaPrepareTheta (nth 1 KeccakF1600RoundConstants 0%N) 25 0;
   thetaRhoPiChiIotaPrepareTheta (nth 2 KeccakF1600RoundConstants 0%N) 0 25;
   thetaRhoPiChiIotaPrepareTheta (nth 3 KeccakF1600RoundConstants 0%N) 25 0;
   thetaRhoPiChiIotaPrepareTheta (nth 4 KeccakF1600RoundConstants 0%N) 0 25;
   thetaRhoPiChiIotaPrepareTheta (nth 5 KeccakF1600RoundConstants 0%N) 25 0;
   thetaRhoPiChiIotaPrepareTheta (nth 6 KeccakF1600RoundConstants 0%N) 0 25;
   thetaRhoPiChiIotaPrepareTheta (nth 7 KeccakF1600RoundConstants 0%N) 25 0;
   thetaRhoPiChiIotaPrepareTheta (nth 8 KeccakF1600RoundConstants 0%N) 0 25;
   thetaRhoPiChiIotaPrepareTheta (nth 9 KeccakF1600RoundConstants 0%N) 25 0;
   thetaRhoPiChiIotaPrepareTheta (nth 10 KeccakF1600RoundConstants 0%N) 0 25;
   thetaRhoPiChiIotaPrepareTheta (nth 11 KeccakF1600RoundConstants 0%N) 25 0;
   thetaRhoPiChiIotaPrepareTheta (nth 12 KeccakF1600RoundConstants 0%N) 0 25;
   thetaRhoPiChiIotaPrepareTheta (nth 13 KeccakF1600RoundConstants 0%N) 25 0;
   thetaRhoPiChiIotaPrepareTheta (nth 14 KeccakF1600RoundConstants 0%N) 0 25;
   thetaRhoPiChiIotaPrepareTheta (nth 15 KeccakF1600RoundConstants 0%N) 25 0;
   thetaRhoPiChiIotaPrepareTheta (nth 16 KeccakF1600RoundConstants 0%N) 0 25;
   thetaRhoPiChiIotaPrepareTheta (nth 17 KeccakF1600RoundConstants 0%N) 25 0;
   thetaRhoPiChiIotaPrepareTheta (nth 18 KeccakF1600RoundConstants 0%N) 0 25;
   thetaRhoPiChiIotaPrepareTheta (nth 19 KeccakF1600RoundConstants 0%N) 25 0;
   thetaRhoPiChiIotaPrepareTheta (nth 20 KeccakF1600RoundConstants 0%N) 0 25;
   thetaRhoPiChiIotaPrepareTheta (nth 21 KeccakF1600RoundConstants 0%N) 25 0;
   thetaRhoPiChiIotaPrepareTheta (nth 22 KeccakF1600RoundConstants 0%N) 0 25;
   thetaRhoPiChiIota (nth 23 KeccakF1600RoundConstants 0%N) 25 0].

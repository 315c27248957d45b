(** Generated by tools/ckeccak_settings.py from keccak/KeccakF-1600-64.macros.h,
    KeccakF-1600-simd64.macros.h, KeccakF-1600-simd128.macros.h and
    KeccakF-1600-unrolling.macros.h; see there for the numbering of the variables. *)
From Coq Require Import NArith List.
From Verif Require Import SLP CkProg CkVecModel.
Import ListNotations.
Open Scope nat_scope.

(** ** KeccakF-1600-64.macros.h without UseBebigokimisa; copyStateVariables with and without *)
(** thetaRhoPiChiIotaPrepareTheta, KeccakF-1600-64.macros.h:253-364. *)
Definition plain_round (c : N) (a e : nat) : prog :=
  [Set_ 55 (E2 BXor (EV 54) (ROL64 51 1));
   Set_ 56 (E2 BXor (EV 50) (ROL64 52 1));
   Set_ 57 (E2 BXor (EV 51) (ROL64 53 1));
   Set_ 58 (E2 BXor (EV 52) (ROL64 54 1));
   Set_ 59 (E2 BXor (EV 53) (ROL64 50 1));
   Set_ (a + 0) (E2 BXor (EV (a + 0)) (EV 55));
   Set_ 60 (EV (a + 0));
   Set_ (a + 6) (E2 BXor (EV (a + 6)) (EV 56));
   Set_ 61 (ROL64 (a + 6) 44);
   Set_ (a + 12) (E2 BXor (EV (a + 12)) (EV 57));
   Set_ 62 (ROL64 (a + 12) 43);
   Set_ (a + 18) (E2 BXor (EV (a + 18)) (EV 58));
   Set_ 63 (ROL64 (a + 18) 21);
   Set_ (a + 24) (E2 BXor (EV (a + 24)) (EV 59));
   Set_ 64 (ROL64 (a + 24) 14);
   Set_ (e + 0) (E2 BXor (EV 60) (E2 BAnd (E1 UNot (EV 61)) (EV 62)));
   Set_ (e + 0) (E2 BXor (EV (e + 0)) (EC c));
   Set_ 50 (EV (e + 0));
   Set_ (e + 1) (E2 BXor (EV 61) (E2 BAnd (E1 UNot (EV 62)) (EV 63)));
   Set_ 51 (EV (e + 1));
   Set_ (e + 2) (E2 BXor (EV 62) (E2 BAnd (E1 UNot (EV 63)) (EV 64)));
   Set_ 52 (EV (e + 2));
   Set_ (e + 3) (E2 BXor (EV 63) (E2 BAnd (E1 UNot (EV 64)) (EV 60)));
   Set_ 53 (EV (e + 3));
   Set_ (e + 4) (E2 BXor (EV 64) (E2 BAnd (E1 UNot (EV 60)) (EV 61)));
   Set_ 54 (EV (e + 4));
   Set_ (a + 3) (E2 BXor (EV (a + 3)) (EV 58));
   Set_ 65 (ROL64 (a + 3) 28);
   Set_ (a + 9) (E2 BXor (EV (a + 9)) (EV 59));
   Set_ 66 (ROL64 (a + 9) 20);
   Set_ (a + 10) (E2 BXor (EV (a + 10)) (EV 55));
   Set_ 67 (ROL64 (a + 10) 3);
   Set_ (a + 16) (E2 BXor (EV (a + 16)) (EV 56));
   Set_ 68 (ROL64 (a + 16) 45);
   Set_ (a + 22) (E2 BXor (EV (a + 22)) (EV 57));
   Set_ 69 (ROL64 (a + 22) 61);
   Set_ (e + 5) (E2 BXor (EV 65) (E2 BAnd (E1 UNot (EV 66)) (EV 67)));
   Set_ 50 (E2 BXor (EV 50) (EV (e + 5)));
   Set_ (e + 6) (E2 BXor (EV 66) (E2 BAnd (E1 UNot (EV 67)) (EV 68)));
   Set_ 51 (E2 BXor (EV 51) (EV (e + 6)));
   Set_ (e + 7) (E2 BXor (EV 67) (E2 BAnd (E1 UNot (EV 68)) (EV 69)));
   Set_ 52 (E2 BXor (EV 52) (EV (e + 7)));
   Set_ (e + 8) (E2 BXor (EV 68) (E2 BAnd (E1 UNot (EV 69)) (EV 65)));
   Set_ 53 (E2 BXor (EV 53) (EV (e + 8)));
   Set_ (e + 9) (E2 BXor (EV 69) (E2 BAnd (E1 UNot (EV 65)) (EV 66)));
   Set_ 54 (E2 BXor (EV 54) (EV (e + 9)));
   Set_ (a + 1) (E2 BXor (EV (a + 1)) (EV 56));
   Set_ 70 (ROL64 (a + 1) 1);
   Set_ (a + 7) (E2 BXor (EV (a + 7)) (EV 57));
   Set_ 71 (ROL64 (a + 7) 6);
   Set_ (a + 13) (E2 BXor (EV (a + 13)) (EV 58));
   Set_ 72 (ROL64 (a + 13) 25);
   Set_ (a + 19) (E2 BXor (EV (a + 19)) (EV 59));
   Set_ 73 (ROL64 (a + 19) 8);
   Set_ (a + 20) (E2 BXor (EV (a + 20)) (EV 55));
   Set_ 74 (ROL64 (a + 20) 18);
   Set_ (e + 10) (E2 BXor (EV 70) (E2 BAnd (E1 UNot (EV 71)) (EV 72)));
   Set_ 50 (E2 BXor (EV 50) (EV (e + 10)));
   Set_ (e + 11) (E2 BXor (EV 71) (E2 BAnd (E1 UNot (EV 72)) (EV 73)));
   Set_ 51 (E2 BXor (EV 51) (EV (e + 11)));
   Set_ (e + 12) (E2 BXor (EV 72) (E2 BAnd (E1 UNot (EV 73)) (EV 74)));
   Set_ 52 (E2 BXor (EV 52) (EV (e + 12)));
   Set_ (e + 13) (E2 BXor (EV 73) (E2 BAnd (E1 UNot (EV 74)) (EV 70)));
   Set_ 53 (E2 BXor (EV 53) (EV (e + 13)));
   Set_ (e + 14) (E2 BXor (EV 74) (E2 BAnd (E1 UNot (EV 70)) (EV 71)));
   Set_ 54 (E2 BXor (EV 54) (EV (e + 14)));
   Set_ (a + 4) (E2 BXor (EV (a + 4)) (EV 59));
   Set_ 75 (ROL64 (a + 4) 27);
   Set_ (a + 5) (E2 BXor (EV (a + 5)) (EV 55));
   Set_ 76 (ROL64 (a + 5) 36);
   Set_ (a + 11) (E2 BXor (EV (a + 11)) (EV 56));
   Set_ 77 (ROL64 (a + 11) 10);
   Set_ (a + 17) (E2 BXor (EV (a + 17)) (EV 57));
   Set_ 78 (ROL64 (a + 17) 15);
   Set_ (a + 23) (E2 BXor (EV (a + 23)) (EV 58));
   Set_ 79 (ROL64 (a + 23) 56);
   Set_ (e + 15) (E2 BXor (EV 75) (E2 BAnd (E1 UNot (EV 76)) (EV 77)));
   Set_ 50 (E2 BXor (EV 50) (EV (e + 15)));
   Set_ (e + 16) (E2 BXor (EV 76) (E2 BAnd (E1 UNot (EV 77)) (EV 78)));
   Set_ 51 (E2 BXor (EV 51) (EV (e + 16)));
   Set_ (e + 17) (E2 BXor (EV 77) (E2 BAnd (E1 UNot (EV 78)) (EV 79)));
   Set_ 52 (E2 BXor (EV 52) (EV (e + 17)));
   Set_ (e + 18) (E2 BXor (EV 78) (E2 BAnd (E1 UNot (EV 79)) (EV 75)));
   Set_ 53 (E2 BXor (EV 53) (EV (e + 18)));
   Set_ (e + 19) (E2 BXor (EV 79) (E2 BAnd (E1 UNot (EV 75)) (EV 76)));
   Set_ 54 (E2 BXor (EV 54) (EV (e + 19)));
   Set_ (a + 2) (E2 BXor (EV (a + 2)) (EV 57));
   Set_ 80 (ROL64 (a + 2) 62);
   Set_ (a + 8) (E2 BXor (EV (a + 8)) (EV 58));
   Set_ 81 (ROL64 (a + 8) 55);
   Set_ (a + 14) (E2 BXor (EV (a + 14)) (EV 59));
   Set_ 82 (ROL64 (a + 14) 39);
   Set_ (a + 15) (E2 BXor (EV (a + 15)) (EV 55));
   Set_ 83 (ROL64 (a + 15) 41);
   Set_ (a + 21) (E2 BXor (EV (a + 21)) (EV 56));
   Set_ 84 (ROL64 (a + 21) 2);
   Set_ (e + 20) (E2 BXor (EV 80) (E2 BAnd (E1 UNot (EV 81)) (EV 82)));
   Set_ 50 (E2 BXor (EV 50) (EV (e + 20)));
   Set_ (e + 21) (E2 BXor (EV 81) (E2 BAnd (E1 UNot (EV 82)) (EV 83)));
   Set_ 51 (E2 BXor (EV 51) (EV (e + 21)));
   Set_ (e + 22) (E2 BXor (EV 82) (E2 BAnd (E1 UNot (EV 83)) (EV 84)));
   Set_ 52 (E2 BXor (EV 52) (EV (e + 22)));
   Set_ (e + 23) (E2 BXor (EV 83) (E2 BAnd (E1 UNot (EV 84)) (EV 80)));
   Set_ 53 (E2 BXor (EV 53) (EV (e + 23)));
   Set_ (e + 24) (E2 BXor (EV 84) (E2 BAnd (E1 UNot (EV 80)) (EV 81)));
   Set_ 54 (E2 BXor (EV 54) (EV (e + 24)))].
(** thetaRhoPiChiIota, KeccakF-1600-64.macros.h:369-455. *)
Definition plain_last (c : N) (a e : nat) : prog :=
  [Set_ 55 (E2 BXor (EV 54) (ROL64 51 1));
   Set_ 56 (E2 BXor (EV 50) (ROL64 52 1));
   Set_ 57 (E2 BXor (EV 51) (ROL64 53 1));
   Set_ 58 (E2 BXor (EV 52) (ROL64 54 1));
   Set_ 59 (E2 BXor (EV 53) (ROL64 50 1));
   Set_ (a + 0) (E2 BXor (EV (a + 0)) (EV 55));
   Set_ 60 (EV (a + 0));
   Set_ (a + 6) (E2 BXor (EV (a + 6)) (EV 56));
   Set_ 61 (ROL64 (a + 6) 44);
   Set_ (a + 12) (E2 BXor (EV (a + 12)) (EV 57));
   Set_ 62 (ROL64 (a + 12) 43);
   Set_ (a + 18) (E2 BXor (EV (a + 18)) (EV 58));
   Set_ 63 (ROL64 (a + 18) 21);
   Set_ (a + 24) (E2 BXor (EV (a + 24)) (EV 59));
   Set_ 64 (ROL64 (a + 24) 14);
   Set_ (e + 0) (E2 BXor (EV 60) (E2 BAnd (E1 UNot (EV 61)) (EV 62)));
   Set_ (e + 0) (E2 BXor (EV (e + 0)) (EC c));
   Set_ (e + 1) (E2 BXor (EV 61) (E2 BAnd (E1 UNot (EV 62)) (EV 63)));
   Set_ (e + 2) (E2 BXor (EV 62) (E2 BAnd (E1 UNot (EV 63)) (EV 64)));
   Set_ (e + 3) (E2 BXor (EV 63) (E2 BAnd (E1 UNot (EV 64)) (EV 60)));
   Set_ (e + 4) (E2 BXor (EV 64) (E2 BAnd (E1 UNot (EV 60)) (EV 61)));
   Set_ (a + 3) (E2 BXor (EV (a + 3)) (EV 58));
   Set_ 65 (ROL64 (a + 3) 28);
   Set_ (a + 9) (E2 BXor (EV (a + 9)) (EV 59));
   Set_ 66 (ROL64 (a + 9) 20);
   Set_ (a + 10) (E2 BXor (EV (a + 10)) (EV 55));
   Set_ 67 (ROL64 (a + 10) 3);
   Set_ (a + 16) (E2 BXor (EV (a + 16)) (EV 56));
   Set_ 68 (ROL64 (a + 16) 45);
   Set_ (a + 22) (E2 BXor (EV (a + 22)) (EV 57));
   Set_ 69 (ROL64 (a + 22) 61);
   Set_ (e + 5) (E2 BXor (EV 65) (E2 BAnd (E1 UNot (EV 66)) (EV 67)));
   Set_ (e + 6) (E2 BXor (EV 66) (E2 BAnd (E1 UNot (EV 67)) (EV 68)));
   Set_ (e + 7) (E2 BXor (EV 67) (E2 BAnd (E1 UNot (EV 68)) (EV 69)));
   Set_ (e + 8) (E2 BXor (EV 68) (E2 BAnd (E1 UNot (EV 69)) (EV 65)));
   Set_ (e + 9) (E2 BXor (EV 69) (E2 BAnd (E1 UNot (EV 65)) (EV 66)));
   Set_ (a + 1) (E2 BXor (EV (a + 1)) (EV 56));
   Set_ 70 (ROL64 (a + 1) 1);
   Set_ (a + 7) (E2 BXor (EV (a + 7)) (EV 57));
   Set_ 71 (ROL64 (a + 7) 6);
   Set_ (a + 13) (E2 BXor (EV (a + 13)) (EV 58));
   Set_ 72 (ROL64 (a + 13) 25);
   Set_ (a + 19) (E2 BXor (EV (a + 19)) (EV 59));
   Set_ 73 (ROL64 (a + 19) 8);
   Set_ (a + 20) (E2 BXor (EV (a + 20)) (EV 55));
   Set_ 74 (ROL64 (a + 20) 18);
   Set_ (e + 10) (E2 BXor (EV 70) (E2 BAnd (E1 UNot (EV 71)) (EV 72)));
   Set_ (e + 11) (E2 BXor (EV 71) (E2 BAnd (E1 UNot (EV 72)) (EV 73)));
   Set_ (e + 12) (E2 BXor (EV 72) (E2 BAnd (E1 UNot (EV 73)) (EV 74)));
   Set_ (e + 13) (E2 BXor (EV 73) (E2 BAnd (E1 UNot (EV 74)) (EV 70)));
   Set_ (e + 14) (E2 BXor (EV 74) (E2 BAnd (E1 UNot (EV 70)) (EV 71)));
   Set_ (a + 4) (E2 BXor (EV (a + 4)) (EV 59));
   Set_ 75 (ROL64 (a + 4) 27);
   Set_ (a + 5) (E2 BXor (EV (a + 5)) (EV 55));
   Set_ 76 (ROL64 (a + 5) 36);
   Set_ (a + 11) (E2 BXor (EV (a + 11)) (EV 56));
   Set_ 77 (ROL64 (a + 11) 10);
   Set_ (a + 17) (E2 BXor (EV (a + 17)) (EV 57));
   Set_ 78 (ROL64 (a + 17) 15);
   Set_ (a + 23) (E2 BXor (EV (a + 23)) (EV 58));
   Set_ 79 (ROL64 (a + 23) 56);
   Set_ (e + 15) (E2 BXor (EV 75) (E2 BAnd (E1 UNot (EV 76)) (EV 77)));
   Set_ (e + 16) (E2 BXor (EV 76) (E2 BAnd (E1 UNot (EV 77)) (EV 78)));
   Set_ (e + 17) (E2 BXor (EV 77) (E2 BAnd (E1 UNot (EV 78)) (EV 79)));
   Set_ (e + 18) (E2 BXor (EV 78) (E2 BAnd (E1 UNot (EV 79)) (EV 75)));
   Set_ (e + 19) (E2 BXor (EV 79) (E2 BAnd (E1 UNot (EV 75)) (EV 76)));
   Set_ (a + 2) (E2 BXor (EV (a + 2)) (EV 57));
   Set_ 80 (ROL64 (a + 2) 62);
   Set_ (a + 8) (E2 BXor (EV (a + 8)) (EV 58));
   Set_ 81 (ROL64 (a + 8) 55);
   Set_ (a + 14) (E2 BXor (EV (a + 14)) (EV 59));
   Set_ 82 (ROL64 (a + 14) 39);
   Set_ (a + 15) (E2 BXor (EV (a + 15)) (EV 55));
   Set_ 83 (ROL64 (a + 15) 41);
   Set_ (a + 21) (E2 BXor (EV (a + 21)) (EV 56));
   Set_ 84 (ROL64 (a + 21) 2);
   Set_ (e + 20) (E2 BXor (EV 80) (E2 BAnd (E1 UNot (EV 81)) (EV 82)));
   Set_ (e + 21) (E2 BXor (EV 81) (E2 BAnd (E1 UNot (EV 82)) (EV 83)));
   Set_ (e + 22) (E2 BXor (EV 82) (E2 BAnd (E1 UNot (EV 83)) (EV 84)));
   Set_ (e + 23) (E2 BXor (EV 83) (E2 BAnd (E1 UNot (EV 84)) (EV 80)));
   Set_ (e + 24) (E2 BXor (EV 84) (E2 BAnd (E1 UNot (EV 80)) (EV 81)))].
(** copyStateVariables, KeccakF-1600-64.macros.h:702-727. *)
Definition copyStateVariables (x y : nat) : prog :=
  [Set_ (x + 0) (EV (y + 0));
   Set_ (x + 1) (EV (y + 1));
   Set_ (x + 2) (EV (y + 2));
   Set_ (x + 3) (EV (y + 3));
   Set_ (x + 4) (EV (y + 4));
   Set_ (x + 5) (EV (y + 5));
   Set_ (x + 6) (EV (y + 6));
   Set_ (x + 7) (EV (y + 7));
   Set_ (x + 8) (EV (y + 8));
   Set_ (x + 9) (EV (y + 9));
   Set_ (x + 10) (EV (y + 10));
   Set_ (x + 11) (EV (y + 11));
   Set_ (x + 12) (EV (y + 12));
   Set_ (x + 13) (EV (y + 13));
   Set_ (x + 14) (EV (y + 14));
   Set_ (x + 15) (EV (y + 15));
   Set_ (x + 16) (EV (y + 16));
   Set_ (x + 17) (EV (y + 17));
   Set_ (x + 18) (EV (y + 18));
   Set_ (x + 19) (EV (y + 19));
   Set_ (x + 20) (EV (y + 20));
   Set_ (x + 21) (EV (y + 21));
   Set_ (x + 22) (EV (y + 22));
   Set_ (x + 23) (EV (y + 23));
   Set_ (x + 24) (EV (y + 24))].

(** ** KeccakF-1600-simd64.macros.h *)
(** thetaRhoPiChiIotaPrepareTheta, KeccakF-1600-simd64.macros.h:44-155. *)
Definition v64_round (c : N) (a e : nat) : vprog :=
  [VSet 55 (VXor (VV 54) (VRol (VV 51) 1));
   VSet 56 (VXor (VV 50) (VRol (VV 52) 1));
   VSet 57 (VXor (VV 51) (VRol (VV 53) 1));
   VSet 58 (VXor (VV 52) (VRol (VV 54) 1));
   VSet 59 (VXor (VV 53) (VRol (VV 50) 1));
   VSet (a + 0) (VXor (VV (a + 0)) (VV 55));
   VSet 60 (VV (a + 0));
   VSet (a + 6) (VXor (VV (a + 6)) (VV 56));
   VSet 61 (VRol (VV (a + 6)) 44);
   VSet (a + 12) (VXor (VV (a + 12)) (VV 57));
   VSet 62 (VRol (VV (a + 12)) 43);
   VSet (e + 0) (VXor (VV 60) (VAndn (VV 61) (VV 62)));
   VSet (e + 0) (VXor (VV (e + 0)) (VConst c));
   VSet 50 (VV (e + 0));
   VSet (a + 18) (VXor (VV (a + 18)) (VV 58));
   VSet 63 (VRol (VV (a + 18)) 21);
   VSet (e + 1) (VXor (VV 61) (VAndn (VV 62) (VV 63)));
   VSet 51 (VV (e + 1));
   VSet (a + 24) (VXor (VV (a + 24)) (VV 59));
   VSet 64 (VRol (VV (a + 24)) 14);
   VSet (e + 2) (VXor (VV 62) (VAndn (VV 63) (VV 64)));
   VSet 52 (VV (e + 2));
   VSet (e + 3) (VXor (VV 63) (VAndn (VV 64) (VV 60)));
   VSet 53 (VV (e + 3));
   VSet (e + 4) (VXor (VV 64) (VAndn (VV 60) (VV 61)));
   VSet 54 (VV (e + 4));
   VSet (a + 3) (VXor (VV (a + 3)) (VV 58));
   VSet 65 (VRol (VV (a + 3)) 28);
   VSet (a + 9) (VXor (VV (a + 9)) (VV 59));
   VSet 66 (VRol (VV (a + 9)) 20);
   VSet (a + 10) (VXor (VV (a + 10)) (VV 55));
   VSet 67 (VRol (VV (a + 10)) 3);
   VSet (e + 5) (VXor (VV 65) (VAndn (VV 66) (VV 67)));
   VSet 50 (VXor (VV 50) (VV (e + 5)));
   VSet (a + 16) (VXor (VV (a + 16)) (VV 56));
   VSet 68 (VRol (VV (a + 16)) 45);
   VSet (e + 6) (VXor (VV 66) (VAndn (VV 67) (VV 68)));
   VSet 51 (VXor (VV 51) (VV (e + 6)));
   VSet (a + 22) (VXor (VV (a + 22)) (VV 57));
   VSet 69 (VRol (VV (a + 22)) 61);
   VSet (e + 7) (VXor (VV 67) (VAndn (VV 68) (VV 69)));
   VSet 52 (VXor (VV 52) (VV (e + 7)));
   VSet (e + 8) (VXor (VV 68) (VAndn (VV 69) (VV 65)));
   VSet 53 (VXor (VV 53) (VV (e + 8)));
   VSet (e + 9) (VXor (VV 69) (VAndn (VV 65) (VV 66)));
   VSet 54 (VXor (VV 54) (VV (e + 9)));
   VSet (a + 1) (VXor (VV (a + 1)) (VV 56));
   VSet 70 (VRol (VV (a + 1)) 1);
   VSet (a + 7) (VXor (VV (a + 7)) (VV 57));
   VSet 71 (VRol (VV (a + 7)) 6);
   VSet (a + 13) (VXor (VV (a + 13)) (VV 58));
   VSet 72 (VRol (VV (a + 13)) 25);
   VSet (e + 10) (VXor (VV 70) (VAndn (VV 71) (VV 72)));
   VSet 50 (VXor (VV 50) (VV (e + 10)));
   VSet (a + 19) (VXor (VV (a + 19)) (VV 59));
   VSet 73 (VRol (VV (a + 19)) 8);
   VSet (e + 11) (VXor (VV 71) (VAndn (VV 72) (VV 73)));
   VSet 51 (VXor (VV 51) (VV (e + 11)));
   VSet (a + 20) (VXor (VV (a + 20)) (VV 55));
   VSet 74 (VRol (VV (a + 20)) 18);
   VSet (e + 12) (VXor (VV 72) (VAndn (VV 73) (VV 74)));
   VSet 52 (VXor (VV 52) (VV (e + 12)));
   VSet (e + 13) (VXor (VV 73) (VAndn (VV 74) (VV 70)));
   VSet 53 (VXor (VV 53) (VV (e + 13)));
   VSet (e + 14) (VXor (VV 74) (VAndn (VV 70) (VV 71)));
   VSet 54 (VXor (VV 54) (VV (e + 14)));
   VSet (a + 4) (VXor (VV (a + 4)) (VV 59));
   VSet 75 (VRol (VV (a + 4)) 27);
   VSet (a + 5) (VXor (VV (a + 5)) (VV 55));
   VSet 76 (VRol (VV (a + 5)) 36);
   VSet (a + 11) (VXor (VV (a + 11)) (VV 56));
   VSet 77 (VRol (VV (a + 11)) 10);
   VSet (e + 15) (VXor (VV 75) (VAndn (VV 76) (VV 77)));
   VSet 50 (VXor (VV 50) (VV (e + 15)));
   VSet (a + 17) (VXor (VV (a + 17)) (VV 57));
   VSet 78 (VRol (VV (a + 17)) 15);
   VSet (e + 16) (VXor (VV 76) (VAndn (VV 77) (VV 78)));
   VSet 51 (VXor (VV 51) (VV (e + 16)));
   VSet (a + 23) (VXor (VV (a + 23)) (VV 58));
   VSet 79 (VRol (VV (a + 23)) 56);
   VSet (e + 17) (VXor (VV 77) (VAndn (VV 78) (VV 79)));
   VSet 52 (VXor (VV 52) (VV (e + 17)));
   VSet (e + 18) (VXor (VV 78) (VAndn (VV 79) (VV 75)));
   VSet 53 (VXor (VV 53) (VV (e + 18)));
   VSet (e + 19) (VXor (VV 79) (VAndn (VV 75) (VV 76)));
   VSet 54 (VXor (VV 54) (VV (e + 19)));
   VSet (a + 2) (VXor (VV (a + 2)) (VV 57));
   VSet 80 (VRol (VV (a + 2)) 62);
   VSet (a + 8) (VXor (VV (a + 8)) (VV 58));
   VSet 81 (VRol (VV (a + 8)) 55);
   VSet (a + 14) (VXor (VV (a + 14)) (VV 59));
   VSet 82 (VRol (VV (a + 14)) 39);
   VSet (e + 20) (VXor (VV 80) (VAndn (VV 81) (VV 82)));
   VSet 50 (VXor (VV 50) (VV (e + 20)));
   VSet (a + 15) (VXor (VV (a + 15)) (VV 55));
   VSet 83 (VRol (VV (a + 15)) 41);
   VSet (e + 21) (VXor (VV 81) (VAndn (VV 82) (VV 83)));
   VSet 51 (VXor (VV 51) (VV (e + 21)));
   VSet (a + 21) (VXor (VV (a + 21)) (VV 56));
   VSet 84 (VRol (VV (a + 21)) 2);
   VSet (e + 22) (VXor (VV 82) (VAndn (VV 83) (VV 84)));
   VSet 52 (VXor (VV 52) (VV (e + 22)));
   VSet (e + 23) (VXor (VV 83) (VAndn (VV 84) (VV 80)));
   VSet 53 (VXor (VV 53) (VV (e + 23)));
   VSet (e + 24) (VXor (VV 84) (VAndn (VV 80) (VV 81)));
   VSet 54 (VXor (VV 54) (VV (e + 24)))].
(** copyFromStateAndXor576bits, KeccakF-1600-simd64.macros.h:275-300. *)
Definition v64_load576 (x : nat) : vprog :=
  [VSet (x + 0) (VXor (VMem64 MState 0) (VMem64 MInput 0));
   VSet (x + 1) (VXor (VMem64 MState 1) (VMem64 MInput 1));
   VSet (x + 2) (VXor (VMem64 MState 2) (VMem64 MInput 2));
   VSet (x + 3) (VXor (VMem64 MState 3) (VMem64 MInput 3));
   VSet (x + 4) (VXor (VMem64 MState 4) (VMem64 MInput 4));
   VSet (x + 5) (VXor (VMem64 MState 5) (VMem64 MInput 5));
   VSet (x + 6) (VXor (VMem64 MState 6) (VMem64 MInput 6));
   VSet (x + 7) (VXor (VMem64 MState 7) (VMem64 MInput 7));
   VSet (x + 8) (VXor (VMem64 MState 8) (VMem64 MInput 8));
   VSet (x + 9) (VMem64 MState 9);
   VSet (x + 10) (VMem64 MState 10);
   VSet (x + 11) (VMem64 MState 11);
   VSet (x + 12) (VMem64 MState 12);
   VSet (x + 13) (VMem64 MState 13);
   VSet (x + 14) (VMem64 MState 14);
   VSet (x + 15) (VMem64 MState 15);
   VSet (x + 16) (VMem64 MState 16);
   VSet (x + 17) (VMem64 MState 17);
   VSet (x + 18) (VMem64 MState 18);
   VSet (x + 19) (VMem64 MState 19);
   VSet (x + 20) (VMem64 MState 20);
   VSet (x + 21) (VMem64 MState 21);
   VSet (x + 22) (VMem64 MState 22);
   VSet (x + 23) (VMem64 MState 23);
   VSet (x + 24) (VMem64 MState 24)].
(** copyFromStateAndXor832bits, KeccakF-1600-simd64.macros.h:302-327. *)
Definition v64_load832 (x : nat) : vprog :=
  [VSet (x + 0) (VXor (VMem64 MState 0) (VMem64 MInput 0));
   VSet (x + 1) (VXor (VMem64 MState 1) (VMem64 MInput 1));
   VSet (x + 2) (VXor (VMem64 MState 2) (VMem64 MInput 2));
   VSet (x + 3) (VXor (VMem64 MState 3) (VMem64 MInput 3));
   VSet (x + 4) (VXor (VMem64 MState 4) (VMem64 MInput 4));
   VSet (x + 5) (VXor (VMem64 MState 5) (VMem64 MInput 5));
   VSet (x + 6) (VXor (VMem64 MState 6) (VMem64 MInput 6));
   VSet (x + 7) (VXor (VMem64 MState 7) (VMem64 MInput 7));
   VSet (x + 8) (VXor (VMem64 MState 8) (VMem64 MInput 8));
   VSet (x + 9) (VXor (VMem64 MState 9) (VMem64 MInput 9));
   VSet (x + 10) (VXor (VMem64 MState 10) (VMem64 MInput 10));
   VSet (x + 11) (VXor (VMem64 MState 11) (VMem64 MInput 11));
   VSet (x + 12) (VXor (VMem64 MState 12) (VMem64 MInput 12));
   VSet (x + 13) (VMem64 MState 13);
   VSet (x + 14) (VMem64 MState 14);
   VSet (x + 15) (VMem64 MState 15);
   VSet (x + 16) (VMem64 MState 16);
   VSet (x + 17) (VMem64 MState 17);
   VSet (x + 18) (VMem64 MState 18);
   VSet (x + 19) (VMem64 MState 19);
   VSet (x + 20) (VMem64 MState 20);
   VSet (x + 21) (VMem64 MState 21);
   VSet (x + 22) (VMem64 MState 22);
   VSet (x + 23) (VMem64 MState 23);
   VSet (x + 24) (VMem64 MState 24)].
(** copyFromStateAndXor1024bits, KeccakF-1600-simd64.macros.h:329-354. *)
Definition v64_load1024 (x : nat) : vprog :=
  [VSet (x + 0) (VXor (VMem64 MState 0) (VMem64 MInput 0));
   VSet (x + 1) (VXor (VMem64 MState 1) (VMem64 MInput 1));
   VSet (x + 2) (VXor (VMem64 MState 2) (VMem64 MInput 2));
   VSet (x + 3) (VXor (VMem64 MState 3) (VMem64 MInput 3));
   VSet (x + 4) (VXor (VMem64 MState 4) (VMem64 MInput 4));
   VSet (x + 5) (VXor (VMem64 MState 5) (VMem64 MInput 5));
   VSet (x + 6) (VXor (VMem64 MState 6) (VMem64 MInput 6));
   VSet (x + 7) (VXor (VMem64 MState 7) (VMem64 MInput 7));
   VSet (x + 8) (VXor (VMem64 MState 8) (VMem64 MInput 8));
   VSet (x + 9) (VXor (VMem64 MState 9) (VMem64 MInput 9));
   VSet (x + 10) (VXor (VMem64 MState 10) (VMem64 MInput 10));
   VSet (x + 11) (VXor (VMem64 MState 11) (VMem64 MInput 11));
   VSet (x + 12) (VXor (VMem64 MState 12) (VMem64 MInput 12));
   VSet (x + 13) (VXor (VMem64 MState 13) (VMem64 MInput 13));
   VSet (x + 14) (VXor (VMem64 MState 14) (VMem64 MInput 14));
   VSet (x + 15) (VXor (VMem64 MState 15) (VMem64 MInput 15));
   VSet (x + 16) (VMem64 MState 16);
   VSet (x + 17) (VMem64 MState 17);
   VSet (x + 18) (VMem64 MState 18);
   VSet (x + 19) (VMem64 MState 19);
   VSet (x + 20) (VMem64 MState 20);
   VSet (x + 21) (VMem64 MState 21);
   VSet (x + 22) (VMem64 MState 22);
   VSet (x + 23) (VMem64 MState 23);
   VSet (x + 24) (VMem64 MState 24)].
(** copyFromStateAndXor1088bits, KeccakF-1600-simd64.macros.h:356-381. *)
Definition v64_load1088 (x : nat) : vprog :=
  [VSet (x + 0) (VXor (VMem64 MState 0) (VMem64 MInput 0));
   VSet (x + 1) (VXor (VMem64 MState 1) (VMem64 MInput 1));
   VSet (x + 2) (VXor (VMem64 MState 2) (VMem64 MInput 2));
   VSet (x + 3) (VXor (VMem64 MState 3) (VMem64 MInput 3));
   VSet (x + 4) (VXor (VMem64 MState 4) (VMem64 MInput 4));
   VSet (x + 5) (VXor (VMem64 MState 5) (VMem64 MInput 5));
   VSet (x + 6) (VXor (VMem64 MState 6) (VMem64 MInput 6));
   VSet (x + 7) (VXor (VMem64 MState 7) (VMem64 MInput 7));
   VSet (x + 8) (VXor (VMem64 MState 8) (VMem64 MInput 8));
   VSet (x + 9) (VXor (VMem64 MState 9) (VMem64 MInput 9));
   VSet (x + 10) (VXor (VMem64 MState 10) (VMem64 MInput 10));
   VSet (x + 11) (VXor (VMem64 MState 11) (VMem64 MInput 11));
   VSet (x + 12) (VXor (VMem64 MState 12) (VMem64 MInput 12));
   VSet (x + 13) (VXor (VMem64 MState 13) (VMem64 MInput 13));
   VSet (x + 14) (VXor (VMem64 MState 14) (VMem64 MInput 14));
   VSet (x + 15) (VXor (VMem64 MState 15) (VMem64 MInput 15));
   VSet (x + 16) (VXor (VMem64 MState 16) (VMem64 MInput 16));
   VSet (x + 17) (VMem64 MState 17);
   VSet (x + 18) (VMem64 MState 18);
   VSet (x + 19) (VMem64 MState 19);
   VSet (x + 20) (VMem64 MState 20);
   VSet (x + 21) (VMem64 MState 21);
   VSet (x + 22) (VMem64 MState 22);
   VSet (x + 23) (VMem64 MState 23);
   VSet (x + 24) (VMem64 MState 24)].
(** copyFromStateAndXor1152bits, KeccakF-1600-simd64.macros.h:383-408. *)
Definition v64_load1152 (x : nat) : vprog :=
  [VSet (x + 0) (VXor (VMem64 MState 0) (VMem64 MInput 0));
   VSet (x + 1) (VXor (VMem64 MState 1) (VMem64 MInput 1));
   VSet (x + 2) (VXor (VMem64 MState 2) (VMem64 MInput 2));
   VSet (x + 3) (VXor (VMem64 MState 3) (VMem64 MInput 3));
   VSet (x + 4) (VXor (VMem64 MState 4) (VMem64 MInput 4));
   VSet (x + 5) (VXor (VMem64 MState 5) (VMem64 MInput 5));
   VSet (x + 6) (VXor (VMem64 MState 6) (VMem64 MInput 6));
   VSet (x + 7) (VXor (VMem64 MState 7) (VMem64 MInput 7));
   VSet (x + 8) (VXor (VMem64 MState 8) (VMem64 MInput 8));
   VSet (x + 9) (VXor (VMem64 MState 9) (VMem64 MInput 9));
   VSet (x + 10) (VXor (VMem64 MState 10) (VMem64 MInput 10));
   VSet (x + 11) (VXor (VMem64 MState 11) (VMem64 MInput 11));
   VSet (x + 12) (VXor (VMem64 MState 12) (VMem64 MInput 12));
   VSet (x + 13) (VXor (VMem64 MState 13) (VMem64 MInput 13));
   VSet (x + 14) (VXor (VMem64 MState 14) (VMem64 MInput 14));
   VSet (x + 15) (VXor (VMem64 MState 15) (VMem64 MInput 15));
   VSet (x + 16) (VXor (VMem64 MState 16) (VMem64 MInput 16));
   VSet (x + 17) (VXor (VMem64 MState 17) (VMem64 MInput 17));
   VSet (x + 18) (VMem64 MState 18);
   VSet (x + 19) (VMem64 MState 19);
   VSet (x + 20) (VMem64 MState 20);
   VSet (x + 21) (VMem64 MState 21);
   VSet (x + 22) (VMem64 MState 22);
   VSet (x + 23) (VMem64 MState 23);
   VSet (x + 24) (VMem64 MState 24)].
(** copyFromStateAndXor1344bits, KeccakF-1600-simd64.macros.h:410-435. *)
Definition v64_load1344 (x : nat) : vprog :=
  [VSet (x + 0) (VXor (VMem64 MState 0) (VMem64 MInput 0));
   VSet (x + 1) (VXor (VMem64 MState 1) (VMem64 MInput 1));
   VSet (x + 2) (VXor (VMem64 MState 2) (VMem64 MInput 2));
   VSet (x + 3) (VXor (VMem64 MState 3) (VMem64 MInput 3));
   VSet (x + 4) (VXor (VMem64 MState 4) (VMem64 MInput 4));
   VSet (x + 5) (VXor (VMem64 MState 5) (VMem64 MInput 5));
   VSet (x + 6) (VXor (VMem64 MState 6) (VMem64 MInput 6));
   VSet (x + 7) (VXor (VMem64 MState 7) (VMem64 MInput 7));
   VSet (x + 8) (VXor (VMem64 MState 8) (VMem64 MInput 8));
   VSet (x + 9) (VXor (VMem64 MState 9) (VMem64 MInput 9));
   VSet (x + 10) (VXor (VMem64 MState 10) (VMem64 MInput 10));
   VSet (x + 11) (VXor (VMem64 MState 11) (VMem64 MInput 11));
   VSet (x + 12) (VXor (VMem64 MState 12) (VMem64 MInput 12));
   VSet (x + 13) (VXor (VMem64 MState 13) (VMem64 MInput 13));
   VSet (x + 14) (VXor (VMem64 MState 14) (VMem64 MInput 14));
   VSet (x + 15) (VXor (VMem64 MState 15) (VMem64 MInput 15));
   VSet (x + 16) (VXor (VMem64 MState 16) (VMem64 MInput 16));
   VSet (x + 17) (VXor (VMem64 MState 17) (VMem64 MInput 17));
   VSet (x + 18) (VXor (VMem64 MState 18) (VMem64 MInput 18));
   VSet (x + 19) (VXor (VMem64 MState 19) (VMem64 MInput 19));
   VSet (x + 20) (VXor (VMem64 MState 20) (VMem64 MInput 20));
   VSet (x + 21) (VMem64 MState 21);
   VSet (x + 22) (VMem64 MState 22);
   VSet (x + 23) (VMem64 MState 23);
   VSet (x + 24) (VMem64 MState 24)].
(** copyFromState, KeccakF-1600-simd64.macros.h:437-462. *)
Definition v64_load (x : nat) : vprog :=
  [VSet (x + 0) (VMem64 MState 0);
   VSet (x + 1) (VMem64 MState 1);
   VSet (x + 2) (VMem64 MState 2);
   VSet (x + 3) (VMem64 MState 3);
   VSet (x + 4) (VMem64 MState 4);
   VSet (x + 5) (VMem64 MState 5);
   VSet (x + 6) (VMem64 MState 6);
   VSet (x + 7) (VMem64 MState 7);
   VSet (x + 8) (VMem64 MState 8);
   VSet (x + 9) (VMem64 MState 9);
   VSet (x + 10) (VMem64 MState 10);
   VSet (x + 11) (VMem64 MState 11);
   VSet (x + 12) (VMem64 MState 12);
   VSet (x + 13) (VMem64 MState 13);
   VSet (x + 14) (VMem64 MState 14);
   VSet (x + 15) (VMem64 MState 15);
   VSet (x + 16) (VMem64 MState 16);
   VSet (x + 17) (VMem64 MState 17);
   VSet (x + 18) (VMem64 MState 18);
   VSet (x + 19) (VMem64 MState 19);
   VSet (x + 20) (VMem64 MState 20);
   VSet (x + 21) (VMem64 MState 21);
   VSet (x + 22) (VMem64 MState 22);
   VSet (x + 23) (VMem64 MState 23);
   VSet (x + 24) (VMem64 MState 24)].
(** copyStateVariables, KeccakF-1600-simd64.macros.h:491-516. *)
Definition v64_copy (x y : nat) : vprog :=
  [VSet (x + 0) (VV (y + 0));
   VSet (x + 1) (VV (y + 1));
   VSet (x + 2) (VV (y + 2));
   VSet (x + 3) (VV (y + 3));
   VSet (x + 4) (VV (y + 4));
   VSet (x + 5) (VV (y + 5));
   VSet (x + 6) (VV (y + 6));
   VSet (x + 7) (VV (y + 7));
   VSet (x + 8) (VV (y + 8));
   VSet (x + 9) (VV (y + 9));
   VSet (x + 10) (VV (y + 10));
   VSet (x + 11) (VV (y + 11));
   VSet (x + 12) (VV (y + 12));
   VSet (x + 13) (VV (y + 13));
   VSet (x + 14) (VV (y + 14));
   VSet (x + 15) (VV (y + 15));
   VSet (x + 16) (VV (y + 16));
   VSet (x + 17) (VV (y + 17));
   VSet (x + 18) (VV (y + 18));
   VSet (x + 19) (VV (y + 19));
   VSet (x + 20) (VV (y + 20));
   VSet (x + 21) (VV (y + 21));
   VSet (x + 22) (VV (y + 22));
   VSet (x + 23) (VV (y + 23));
   VSet (x + 24) (VV (y + 24))].
(** prepareTheta, KeccakF-1600-simd64.macros.h:35-40. *)
Definition v64_prepare : vprog :=
  [VSet 50 (VXor (VV 0) (VXor (VV 5) (VXor (VV 10) (VXor (VV 15) (VV 20)))));
   VSet 51 (VXor (VV 1) (VXor (VV 6) (VXor (VV 11) (VXor (VV 16) (VV 21)))));
   VSet 52 (VXor (VV 2) (VXor (VV 7) (VXor (VV 12) (VXor (VV 17) (VV 22)))));
   VSet 53 (VXor (VV 3) (VXor (VV 8) (VXor (VV 13) (VXor (VV 18) (VV 23)))));
   VSet 54 (VXor (VV 4) (VXor (VV 9) (VXor (VV 14) (VXor (VV 19) (VV 24)))))].
(** thetaRhoPiChiIota, KeccakF-1600-simd64.macros.h:160-246. *)
Definition v64_last (c : N) (a e : nat) : vprog :=
  [VSet 55 (VXor (VV 54) (VRol (VV 51) 1));
   VSet 56 (VXor (VV 50) (VRol (VV 52) 1));
   VSet 57 (VXor (VV 51) (VRol (VV 53) 1));
   VSet 58 (VXor (VV 52) (VRol (VV 54) 1));
   VSet 59 (VXor (VV 53) (VRol (VV 50) 1));
   VSet (a + 0) (VXor (VV (a + 0)) (VV 55));
   VSet 60 (VV (a + 0));
   VSet (a + 6) (VXor (VV (a + 6)) (VV 56));
   VSet 61 (VRol (VV (a + 6)) 44);
   VSet (a + 12) (VXor (VV (a + 12)) (VV 57));
   VSet 62 (VRol (VV (a + 12)) 43);
   VSet (e + 0) (VXor (VV 60) (VAndn (VV 61) (VV 62)));
   VSet (e + 0) (VXor (VV (e + 0)) (VConst c));
   VSet (a + 18) (VXor (VV (a + 18)) (VV 58));
   VSet 63 (VRol (VV (a + 18)) 21);
   VSet (e + 1) (VXor (VV 61) (VAndn (VV 62) (VV 63)));
   VSet (a + 24) (VXor (VV (a + 24)) (VV 59));
   VSet 64 (VRol (VV (a + 24)) 14);
   VSet (e + 2) (VXor (VV 62) (VAndn (VV 63) (VV 64)));
   VSet (e + 3) (VXor (VV 63) (VAndn (VV 64) (VV 60)));
   VSet (e + 4) (VXor (VV 64) (VAndn (VV 60) (VV 61)));
   VSet (a + 3) (VXor (VV (a + 3)) (VV 58));
   VSet 65 (VRol (VV (a + 3)) 28);
   VSet (a + 9) (VXor (VV (a + 9)) (VV 59));
   VSet 66 (VRol (VV (a + 9)) 20);
   VSet (a + 10) (VXor (VV (a + 10)) (VV 55));
   VSet 67 (VRol (VV (a + 10)) 3);
   VSet (e + 5) (VXor (VV 65) (VAndn (VV 66) (VV 67)));
   VSet (a + 16) (VXor (VV (a + 16)) (VV 56));
   VSet 68 (VRol (VV (a + 16)) 45);
   VSet (e + 6) (VXor (VV 66) (VAndn (VV 67) (VV 68)));
   VSet (a + 22) (VXor (VV (a + 22)) (VV 57));
   VSet 69 (VRol (VV (a + 22)) 61);
   VSet (e + 7) (VXor (VV 67) (VAndn (VV 68) (VV 69)));
   VSet (e + 8) (VXor (VV 68) (VAndn (VV 69) (VV 65)));
   VSet (e + 9) (VXor (VV 69) (VAndn (VV 65) (VV 66)));
   VSet (a + 1) (VXor (VV (a + 1)) (VV 56));
   VSet 70 (VRol (VV (a + 1)) 1);
   VSet (a + 7) (VXor (VV (a + 7)) (VV 57));
   VSet 71 (VRol (VV (a + 7)) 6);
   VSet (a + 13) (VXor (VV (a + 13)) (VV 58));
   VSet 72 (VRol (VV (a + 13)) 25);
   VSet (e + 10) (VXor (VV 70) (VAndn (VV 71) (VV 72)));
   VSet (a + 19) (VXor (VV (a + 19)) (VV 59));
   VSet 73 (VRol (VV (a + 19)) 8);
   VSet (e + 11) (VXor (VV 71) (VAndn (VV 72) (VV 73)));
   VSet (a + 20) (VXor (VV (a + 20)) (VV 55));
   VSet 74 (VRol (VV (a + 20)) 18);
   VSet (e + 12) (VXor (VV 72) (VAndn (VV 73) (VV 74)));
   VSet (e + 13) (VXor (VV 73) (VAndn (VV 74) (VV 70)));
   VSet (e + 14) (VXor (VV 74) (VAndn (VV 70) (VV 71)));
   VSet (a + 4) (VXor (VV (a + 4)) (VV 59));
   VSet 75 (VRol (VV (a + 4)) 27);
   VSet (a + 5) (VXor (VV (a + 5)) (VV 55));
   VSet 76 (VRol (VV (a + 5)) 36);
   VSet (a + 11) (VXor (VV (a + 11)) (VV 56));
   VSet 77 (VRol (VV (a + 11)) 10);
   VSet (e + 15) (VXor (VV 75) (VAndn (VV 76) (VV 77)));
   VSet (a + 17) (VXor (VV (a + 17)) (VV 57));
   VSet 78 (VRol (VV (a + 17)) 15);
   VSet (e + 16) (VXor (VV 76) (VAndn (VV 77) (VV 78)));
   VSet (a + 23) (VXor (VV (a + 23)) (VV 58));
   VSet 79 (VRol (VV (a + 23)) 56);
   VSet (e + 17) (VXor (VV 77) (VAndn (VV 78) (VV 79)));
   VSet (e + 18) (VXor (VV 78) (VAndn (VV 79) (VV 75)));
   VSet (e + 19) (VXor (VV 79) (VAndn (VV 75) (VV 76)));
   VSet (a + 2) (VXor (VV (a + 2)) (VV 57));
   VSet 80 (VRol (VV (a + 2)) 62);
   VSet (a + 8) (VXor (VV (a + 8)) (VV 58));
   VSet 81 (VRol (VV (a + 8)) 55);
   VSet (a + 14) (VXor (VV (a + 14)) (VV 59));
   VSet 82 (VRol (VV (a + 14)) 39);
   VSet (e + 20) (VXor (VV 80) (VAndn (VV 81) (VV 82)));
   VSet (a + 15) (VXor (VV (a + 15)) (VV 55));
   VSet 83 (VRol (VV (a + 15)) 41);
   VSet (e + 21) (VXor (VV 81) (VAndn (VV 82) (VV 83)));
   VSet (a + 21) (VXor (VV (a + 21)) (VV 56));
   VSet 84 (VRol (VV (a + 21)) 2);
   VSet (e + 22) (VXor (VV 82) (VAndn (VV 83) (VV 84)));
   VSet (e + 23) (VXor (VV 83) (VAndn (VV 84) (VV 80)));
   VSet (e + 24) (VXor (VV 84) (VAndn (VV 80) (VV 81)))].
(** copyToState, KeccakF-1600-simd64.macros.h:464-489. *)
Definition v64_store (x : nat) : vprog :=
  [VStore 0 (VV (x + 0));
   VStore 1 (VV (x + 1));
   VStore 2 (VV (x + 2));
   VStore 3 (VV (x + 3));
   VStore 4 (VV (x + 4));
   VStore 5 (VV (x + 5));
   VStore 6 (VV (x + 6));
   VStore 7 (VV (x + 7));
   VStore 8 (VV (x + 8));
   VStore 9 (VV (x + 9));
   VStore 10 (VV (x + 10));
   VStore 11 (VV (x + 11));
   VStore 12 (VV (x + 12));
   VStore 13 (VV (x + 13));
   VStore 14 (VV (x + 14));
   VStore 15 (VV (x + 15));
   VStore 16 (VV (x + 16));
   VStore 17 (VV (x + 17));
   VStore 18 (VV (x + 18));
   VStore 19 (VV (x + 19));
   VStore 20 (VV (x + 20));
   VStore 21 (VV (x + 21));
   VStore 22 (VV (x + 22));
   VStore 23 (VV (x + 23));
   VStore 24 (VV (x + 24))].
(** computeD, KeccakF-1600-simd128.macros.h:44-52. *)
Definition computeD : vprog :=
  [VSet 119 (VLo (VV 126) (VV 115));
   VSet 120 (VXor (VV 115) (VRol (VV 117) 1));
   VSet 121 (VXor (VV 117) (VRol (VV 119) 1));
   VSet 127 (VXor (VV 126) (VRol (VHi2Lo (VV 115)) 1));
   VSet 128 (VV 120);
   VSet 129 (VHi2Lo (VV 120));
   VSet 130 (VV 121);
   VSet 131 (VHi2Lo (VV 121))].

(** ** KeccakF-1600-simd128.macros.h *)
(** thetaRhoPiChiIotaPrepareTheta, KeccakF-1600-simd128.macros.h:56-181. *)
Definition v128_round (c : N) (a e : nat) : vprog :=
  computeD ++ [VSet (a + 10) (VHalf (a + 0) false);
   VSet (a + 10) (VXor (VV (a + 10)) (VV 127));
   VSet 90 (VV (a + 10));
   VSet (a + 19) (VXor (VV (a + 19)) (VV 131));
   VSet 96 (VRol (VV (a + 19)) 20);
   VSet 80 (VLo (VV 90) (VV 96));
   VSet (a + 16) (VHalf (a + 0) true);
   VSet (a + 16) (VXor (VV (a + 16)) (VV 128));
   VSet 91 (VRol (VV (a + 16)) 44);
   VSet (a + 20) (VHalf (a + 5) false);
   VSet (a + 20) (VXor (VV (a + 20)) (VV 127));
   VSet 97 (VRol (VV (a + 20)) 3);
   VSet 81 (VLo (VV 91) (VV 97));
   VSet (a + 22) (VXor (VV (a + 22)) (VV 129));
   VSet 92 (VRol (VV (a + 22)) 43);
   VSet (a + 26) (VHalf (a + 5) true);
   VSet (a + 26) (VXor (VV (a + 26)) (VV 128));
   VSet 98 (VRol (VV (a + 26)) 45);
   VSet 82 (VLo (VV 92) (VV 98));
   VSet (e + 0) (VXor (VV 80) (VAndn (VV 81) (VV 82)));
   VSet (e + 0) (VXor (VV (e + 0)) (VConst c));
   VSet 115 (VV (e + 0));
   VSet (a + 28) (VXor (VV (a + 28)) (VV 130));
   VSet 93 (VRol (VV (a + 28)) 21);
   VSet (a + 32) (VXor (VV (a + 32)) (VV 129));
   VSet 99 (VRol (VV (a + 32)) 61);
   VSet 83 (VLo (VV 93) (VV 99));
   VSet (e + 1) (VXor (VV 81) (VAndn (VV 82) (VV 83)));
   VSet 116 (VV (e + 1));
   VSet (a + 34) (VXor (VV (a + 34)) (VV 131));
   VSet 94 (VRol (VV (a + 34)) 14);
   VSet (a + 13) (VXor (VV (a + 13)) (VV 130));
   VSet 95 (VRol (VV (a + 13)) 28);
   VSet 84 (VLo (VV 94) (VV 95));
   VSet (e + 2) (VXor (VV 82) (VAndn (VV 83) (VV 84)));
   VSet (e + 12) (VV (e + 2));
   VSet (e + 18) (VHi (VV (e + 2)) (VV (e + 2)));
   VSet 117 (VV (e + 2));
   VSet (e + 3) (VXor (VV 83) (VAndn (VV 84) (VV 80)));
   VSet (e + 13) (VV (e + 3));
   VSet (e + 19) (VHi (VV (e + 3)) (VV (e + 3)));
   VSet 118 (VV (e + 3));
   VSet (e + 4) (VXor (VV 84) (VAndn (VV 80) (VV 81)));
   VSet (e + 14) (VV (e + 4));
   VSet (e + 15) (VHi (VV (e + 4)) (VV (e + 4)));
   VSet 119 (VV (e + 4));
   VSet (a + 11) (VHalf (a + 1) false);
   VSet (a + 11) (VXor (VV (a + 11)) (VV 128));
   VSet 100 (VRol (VV (a + 11)) 1);
   VSet (a + 15) (VXor (VV (a + 15)) (VV 127));
   VSet 106 (VRol (VV (a + 15)) 36);
   VSet 85 (VLo (VV 100) (VV 106));
   VSet (a + 17) (VHalf (a + 1) true);
   VSet (a + 17) (VXor (VV (a + 17)) (VV 129));
   VSet 101 (VRol (VV (a + 17)) 6);
   VSet (a + 21) (VHalf (a + 6) false);
   VSet (a + 21) (VXor (VV (a + 21)) (VV 128));
   VSet 107 (VRol (VV (a + 21)) 10);
   VSet 86 (VLo (VV 101) (VV 107));
   VSet (a + 23) (VXor (VV (a + 23)) (VV 130));
   VSet 102 (VRol (VV (a + 23)) 25);
   VSet (a + 27) (VHalf (a + 6) true);
   VSet (a + 27) (VXor (VV (a + 27)) (VV 129));
   VSet 108 (VRol (VV (a + 27)) 15);
   VSet 87 (VLo (VV 102) (VV 108));
   VSet (e + 5) (VXor (VV 85) (VAndn (VV 86) (VV 87)));
   VSet 115 (VXor (VV 115) (VV (e + 5)));
   VSet (a + 29) (VXor (VV (a + 29)) (VV 131));
   VSet 103 (VRol (VV (a + 29)) 8);
   VSet (a + 33) (VXor (VV (a + 33)) (VV 130));
   VSet 109 (VRol (VV (a + 33)) 56);
   VSet 88 (VLo (VV 103) (VV 109));
   VSet (e + 6) (VXor (VV 86) (VAndn (VV 87) (VV 88)));
   VSet 116 (VXor (VV 116) (VV (e + 6)));
   VSet (a + 30) (VXor (VV (a + 30)) (VV 127));
   VSet 104 (VRol (VV (a + 30)) 18);
   VSet (a + 14) (VXor (VV (a + 14)) (VV 131));
   VSet 105 (VRol (VV (a + 14)) 27);
   VSet 89 (VLo (VV 104) (VV 105));
   VSet (e + 7) (VXor (VV 87) (VAndn (VV 88) (VV 89)));
   VSet (e + 22) (VV (e + 7));
   VSet (e + 28) (VHi (VV (e + 7)) (VV (e + 7)));
   VSet 117 (VXor (VV 117) (VV (e + 7)));
   VSet (e + 8) (VXor (VV 88) (VAndn (VV 89) (VV 85)));
   VSet (e + 23) (VV (e + 8));
   VSet (e + 29) (VHi (VV (e + 8)) (VV (e + 8)));
   VSet 118 (VXor (VV 118) (VV (e + 8)));
   VSet (e + 9) (VXor (VV 89) (VAndn (VV 85) (VV 86)));
   VSet (e + 24) (VV (e + 9));
   VSet (e + 25) (VHi (VV (e + 9)) (VV (e + 9)));
   VSet 119 (VXor (VV 119) (VV (e + 9)));
   VSet (a + 12) (VXor (VV (a + 12)) (VV 129));
   VSet 110 (VRol (VV (a + 12)) 62);
   VSet (a + 18) (VXor (VV (a + 18)) (VV 130));
   VSet 111 (VRol (VV (a + 18)) 55);
   VSet (a + 24) (VXor (VV (a + 24)) (VV 131));
   VSet 112 (VRol (VV (a + 24)) 39);
   VSet (e + 30) (VXor (VV 110) (VAndn (VV 111) (VV 112)));
   VSet 122 (VV (e + 30));
   VSet (a + 25) (VXor (VV (a + 25)) (VV 127));
   VSet 113 (VRol (VV (a + 25)) 41);
   VSet (e + 31) (VXor (VV 111) (VAndn (VV 112) (VV 113)));
   VSet 123 (VV (e + 31));
   VSet 115 (VXor (VV 115) (VLo (VV 122) (VV 123)));
   VSet (a + 31) (VXor (VV (a + 31)) (VV 128));
   VSet 114 (VRol (VV (a + 31)) 2);
   VSet (e + 32) (VXor (VV 112) (VAndn (VV 113) (VV 114)));
   VSet 124 (VV (e + 32));
   VSet (e + 33) (VXor (VV 113) (VAndn (VV 114) (VV 110)));
   VSet 125 (VV (e + 33));
   VSet 117 (VXor (VV 117) (VLo (VV 124) (VV 125)));
   VSet (e + 34) (VXor (VV 114) (VAndn (VV 110) (VV 111)));
   VSet 126 (VV (e + 34));
   VSet 132 VZero;
   VSet 115 (VXor (VV 115) (VHi (VV 119) (VV 132)));
   VSet 115 (VXor (VV 115) (VLo (VV 132) (VV 116)));
   VSet 117 (VXor (VV 117) (VHi (VV 116) (VV 132)));
   VSet 117 (VXor (VV 117) (VLo (VV 132) (VV 118)));
   VSet 119 (VXor (VV 119) (VHi (VV 118) (VV 132)));
   VSet 126 (VXor (VV 126) (VV 119))].
(** copyFromStateAndXor576bits, KeccakF-1600-simd128.macros.h:213-267. *)
Definition v128_load576 (x : nat) : vprog :=
  [VSet 70 (VXor (VMem128 true MState 0) (VMem128 false MInput 0));
   VSet (x + 10) (VV 70);
   VSet (x + 11) (VHi (VV 70) (VV 70));
   VSet 115 (VV 70);
   VSet 71 (VXor (VMem128 true MState 2) (VMem128 false MInput 2));
   VSet (x + 12) (VV 71);
   VSet (x + 13) (VHi (VV 71) (VV 71));
   VSet 117 (VV 71);
   VSet (x + 14) (VXor (VMem64 MState 4) (VMem64 MInput 4));
   VSet 126 (VV (x + 14));
   VSet 72 (VXor (VMem128 false MState 5) (VMem128 false MInput 5));
   VSet (x + 15) (VV 72);
   VSet (x + 16) (VHi (VV 72) (VV 72));
   VSet (x + 0) (VLo (VV (x + 10)) (VV (x + 16)));
   VSet 115 (VXor (VV 115) (VV 72));
   VSet 73 (VXor (VMem128 false MState 7) (VMem128 false MInput 7));
   VSet (x + 17) (VV 73);
   VSet (x + 1) (VLo (VV (x + 11)) (VV (x + 17)));
   VSet (x + 18) (VHi (VV 73) (VV 73));
   VSet 117 (VXor (VV 117) (VV 73));
   VSet (x + 19) (VMem64 MState 9);
   VSet 126 (VXor (VV 126) (VV (x + 19)));
   VSet 74 (VMem128 true MState 10);
   VSet (x + 20) (VV 74);
   VSet (x + 21) (VHi (VV 74) (VV 74));
   VSet 115 (VXor (VV 115) (VV 74));
   VSet 75 (VMem128 true MState 12);
   VSet (x + 22) (VV 75);
   VSet (x + 23) (VHi (VV 75) (VV 75));
   VSet 117 (VXor (VV 117) (VV 75));
   VSet (x + 24) (VMem64 MState 14);
   VSet 126 (VXor (VV 126) (VV (x + 24)));
   VSet 76 (VMem128 false MState 15);
   VSet (x + 25) (VV 76);
   VSet (x + 26) (VHi (VV 76) (VV 76));
   VSet (x + 5) (VLo (VV (x + 20)) (VV (x + 26)));
   VSet 115 (VXor (VV 115) (VV 76));
   VSet 77 (VMem128 false MState 17);
   VSet (x + 27) (VV 77);
   VSet (x + 6) (VLo (VV (x + 21)) (VV (x + 27)));
   VSet (x + 28) (VHi (VV 77) (VV 77));
   VSet 117 (VXor (VV 117) (VV 77));
   VSet (x + 29) (VMem64 MState 19);
   VSet 126 (VXor (VV 126) (VV (x + 29)));
   VSet 78 (VMem128 true MState 20);
   VSet (x + 30) (VV 78);
   VSet (x + 31) (VHi (VV 78) (VV 78));
   VSet 115 (VXor (VV 115) (VV 78));
   VSet 79 (VMem128 true MState 22);
   VSet (x + 32) (VV 79);
   VSet (x + 33) (VHi (VV 79) (VV 79));
   VSet 117 (VXor (VV 117) (VV 79));
   VSet (x + 34) (VMem64 MState 24);
   VSet 126 (VXor (VV 126) (VV (x + 34)))].
(** copyFromStateAndXor832bits, KeccakF-1600-simd128.macros.h:269-323. *)
Definition v128_load832 (x : nat) : vprog :=
  [VSet 70 (VXor (VMem128 true MState 0) (VMem128 false MInput 0));
   VSet (x + 10) (VV 70);
   VSet (x + 11) (VHi (VV 70) (VV 70));
   VSet 115 (VV 70);
   VSet 71 (VXor (VMem128 true MState 2) (VMem128 false MInput 2));
   VSet (x + 12) (VV 71);
   VSet (x + 13) (VHi (VV 71) (VV 71));
   VSet 117 (VV 71);
   VSet (x + 14) (VXor (VMem64 MState 4) (VMem64 MInput 4));
   VSet 126 (VV (x + 14));
   VSet 72 (VXor (VMem128 false MState 5) (VMem128 false MInput 5));
   VSet (x + 15) (VV 72);
   VSet (x + 16) (VHi (VV 72) (VV 72));
   VSet (x + 0) (VLo (VV (x + 10)) (VV (x + 16)));
   VSet 115 (VXor (VV 115) (VV 72));
   VSet 73 (VXor (VMem128 false MState 7) (VMem128 false MInput 7));
   VSet (x + 17) (VV 73);
   VSet (x + 1) (VLo (VV (x + 11)) (VV (x + 17)));
   VSet (x + 18) (VHi (VV 73) (VV 73));
   VSet 117 (VXor (VV 117) (VV 73));
   VSet (x + 19) (VXor (VMem64 MState 9) (VMem64 MInput 9));
   VSet 126 (VXor (VV 126) (VV (x + 19)));
   VSet 74 (VXor (VMem128 true MState 10) (VMem128 false MInput 10));
   VSet (x + 20) (VV 74);
   VSet (x + 21) (VHi (VV 74) (VV 74));
   VSet 115 (VXor (VV 115) (VV 74));
   VSet 75 (VXor (VMem128 true MState 12) (VMem64 MInput 12));
   VSet (x + 22) (VV 75);
   VSet (x + 23) (VHi (VV 75) (VV 75));
   VSet 117 (VXor (VV 117) (VV 75));
   VSet (x + 24) (VMem64 MState 14);
   VSet 126 (VXor (VV 126) (VV (x + 24)));
   VSet 76 (VMem128 false MState 15);
   VSet (x + 25) (VV 76);
   VSet (x + 26) (VHi (VV 76) (VV 76));
   VSet (x + 5) (VLo (VV (x + 20)) (VV (x + 26)));
   VSet 115 (VXor (VV 115) (VV 76));
   VSet 77 (VMem128 false MState 17);
   VSet (x + 27) (VV 77);
   VSet (x + 6) (VLo (VV (x + 21)) (VV (x + 27)));
   VSet (x + 28) (VHi (VV 77) (VV 77));
   VSet 117 (VXor (VV 117) (VV 77));
   VSet (x + 29) (VMem64 MState 19);
   VSet 126 (VXor (VV 126) (VV (x + 29)));
   VSet 78 (VMem128 true MState 20);
   VSet (x + 30) (VV 78);
   VSet (x + 31) (VHi (VV 78) (VV 78));
   VSet 115 (VXor (VV 115) (VV 78));
   VSet 79 (VMem128 true MState 22);
   VSet (x + 32) (VV 79);
   VSet (x + 33) (VHi (VV 79) (VV 79));
   VSet 117 (VXor (VV 117) (VV 79));
   VSet (x + 34) (VMem64 MState 24);
   VSet 126 (VXor (VV 126) (VV (x + 34)))].
(** copyFromStateAndXor1024bits, KeccakF-1600-simd128.macros.h:325-379. *)
Definition v128_load1024 (x : nat) : vprog :=
  [VSet 70 (VXor (VMem128 true MState 0) (VMem128 false MInput 0));
   VSet (x + 10) (VV 70);
   VSet (x + 11) (VHi (VV 70) (VV 70));
   VSet 115 (VV 70);
   VSet 71 (VXor (VMem128 true MState 2) (VMem128 false MInput 2));
   VSet (x + 12) (VV 71);
   VSet (x + 13) (VHi (VV 71) (VV 71));
   VSet 117 (VV 71);
   VSet (x + 14) (VXor (VMem64 MState 4) (VMem64 MInput 4));
   VSet 126 (VV (x + 14));
   VSet 72 (VXor (VMem128 false MState 5) (VMem128 false MInput 5));
   VSet (x + 15) (VV 72);
   VSet (x + 16) (VHi (VV 72) (VV 72));
   VSet (x + 0) (VLo (VV (x + 10)) (VV (x + 16)));
   VSet 115 (VXor (VV 115) (VV 72));
   VSet 73 (VXor (VMem128 false MState 7) (VMem128 false MInput 7));
   VSet (x + 17) (VV 73);
   VSet (x + 1) (VLo (VV (x + 11)) (VV (x + 17)));
   VSet (x + 18) (VHi (VV 73) (VV 73));
   VSet 117 (VXor (VV 117) (VV 73));
   VSet (x + 19) (VXor (VMem64 MState 9) (VMem64 MInput 9));
   VSet 126 (VXor (VV 126) (VV (x + 19)));
   VSet 74 (VXor (VMem128 true MState 10) (VMem128 false MInput 10));
   VSet (x + 20) (VV 74);
   VSet (x + 21) (VHi (VV 74) (VV 74));
   VSet 115 (VXor (VV 115) (VV 74));
   VSet 75 (VXor (VMem128 true MState 12) (VMem128 false MInput 12));
   VSet (x + 22) (VV 75);
   VSet (x + 23) (VHi (VV 75) (VV 75));
   VSet 117 (VXor (VV 117) (VV 75));
   VSet (x + 24) (VXor (VMem64 MState 14) (VMem64 MInput 14));
   VSet 126 (VXor (VV 126) (VV (x + 24)));
   VSet 76 (VXor (VMem128 false MState 15) (VMem64 MInput 15));
   VSet (x + 25) (VV 76);
   VSet (x + 26) (VHi (VV 76) (VV 76));
   VSet (x + 5) (VLo (VV (x + 20)) (VV (x + 26)));
   VSet 115 (VXor (VV 115) (VV 76));
   VSet 77 (VMem128 false MState 17);
   VSet (x + 27) (VV 77);
   VSet (x + 6) (VLo (VV (x + 21)) (VV (x + 27)));
   VSet (x + 28) (VHi (VV 77) (VV 77));
   VSet 117 (VXor (VV 117) (VV 77));
   VSet (x + 29) (VMem64 MState 19);
   VSet 126 (VXor (VV 126) (VV (x + 29)));
   VSet 78 (VMem128 true MState 20);
   VSet (x + 30) (VV 78);
   VSet (x + 31) (VHi (VV 78) (VV 78));
   VSet 115 (VXor (VV 115) (VV 78));
   VSet 79 (VMem128 true MState 22);
   VSet (x + 32) (VV 79);
   VSet (x + 33) (VHi (VV 79) (VV 79));
   VSet 117 (VXor (VV 117) (VV 79));
   VSet (x + 34) (VMem64 MState 24);
   VSet 126 (VXor (VV 126) (VV (x + 34)))].
(** copyFromStateAndXor1088bits, KeccakF-1600-simd128.macros.h:381-435. *)
Definition v128_load1088 (x : nat) : vprog :=
  [VSet 70 (VXor (VMem128 true MState 0) (VMem128 false MInput 0));
   VSet (x + 10) (VV 70);
   VSet (x + 11) (VHi (VV 70) (VV 70));
   VSet 115 (VV 70);
   VSet 71 (VXor (VMem128 true MState 2) (VMem128 false MInput 2));
   VSet (x + 12) (VV 71);
   VSet (x + 13) (VHi (VV 71) (VV 71));
   VSet 117 (VV 71);
   VSet (x + 14) (VXor (VMem64 MState 4) (VMem64 MInput 4));
   VSet 126 (VV (x + 14));
   VSet 72 (VXor (VMem128 false MState 5) (VMem128 false MInput 5));
   VSet (x + 15) (VV 72);
   VSet (x + 16) (VHi (VV 72) (VV 72));
   VSet (x + 0) (VLo (VV (x + 10)) (VV (x + 16)));
   VSet 115 (VXor (VV 115) (VV 72));
   VSet 73 (VXor (VMem128 false MState 7) (VMem128 false MInput 7));
   VSet (x + 17) (VV 73);
   VSet (x + 1) (VLo (VV (x + 11)) (VV (x + 17)));
   VSet (x + 18) (VHi (VV 73) (VV 73));
   VSet 117 (VXor (VV 117) (VV 73));
   VSet (x + 19) (VXor (VMem64 MState 9) (VMem64 MInput 9));
   VSet 126 (VXor (VV 126) (VV (x + 19)));
   VSet 74 (VXor (VMem128 true MState 10) (VMem128 false MInput 10));
   VSet (x + 20) (VV 74);
   VSet (x + 21) (VHi (VV 74) (VV 74));
   VSet 115 (VXor (VV 115) (VV 74));
   VSet 75 (VXor (VMem128 true MState 12) (VMem128 false MInput 12));
   VSet (x + 22) (VV 75);
   VSet (x + 23) (VHi (VV 75) (VV 75));
   VSet 117 (VXor (VV 117) (VV 75));
   VSet (x + 24) (VXor (VMem64 MState 14) (VMem64 MInput 14));
   VSet 126 (VXor (VV 126) (VV (x + 24)));
   VSet 76 (VXor (VMem128 false MState 15) (VMem128 false MInput 15));
   VSet (x + 25) (VV 76);
   VSet (x + 26) (VHi (VV 76) (VV 76));
   VSet (x + 5) (VLo (VV (x + 20)) (VV (x + 26)));
   VSet 115 (VXor (VV 115) (VV 76));
   VSet 77 (VMem128 false MState 17);
   VSet (x + 27) (VV 77);
   VSet (x + 6) (VLo (VV (x + 21)) (VV (x + 27)));
   VSet (x + 28) (VHi (VV 77) (VV 77));
   VSet 117 (VXor (VV 117) (VV 77));
   VSet (x + 29) (VMem64 MState 19);
   VSet 126 (VXor (VV 126) (VV (x + 29)));
   VSet 78 (VMem128 true MState 20);
   VSet (x + 30) (VV 78);
   VSet (x + 31) (VHi (VV 78) (VV 78));
   VSet 115 (VXor (VV 115) (VV 78));
   VSet 79 (VMem128 true MState 22);
   VSet (x + 32) (VV 79);
   VSet (x + 33) (VHi (VV 79) (VV 79));
   VSet 117 (VXor (VV 117) (VV 79));
   VSet (x + 34) (VMem64 MState 24);
   VSet 126 (VXor (VV 126) (VV (x + 34)))].
(** copyFromStateAndXor1152bits, KeccakF-1600-simd128.macros.h:437-491. *)
Definition v128_load1152 (x : nat) : vprog :=
  [VSet 70 (VXor (VMem128 true MState 0) (VMem128 false MInput 0));
   VSet (x + 10) (VV 70);
   VSet (x + 11) (VHi (VV 70) (VV 70));
   VSet 115 (VV 70);
   VSet 71 (VXor (VMem128 true MState 2) (VMem128 false MInput 2));
   VSet (x + 12) (VV 71);
   VSet (x + 13) (VHi (VV 71) (VV 71));
   VSet 117 (VV 71);
   VSet (x + 14) (VXor (VMem64 MState 4) (VMem64 MInput 4));
   VSet 126 (VV (x + 14));
   VSet 72 (VXor (VMem128 false MState 5) (VMem128 false MInput 5));
   VSet (x + 15) (VV 72);
   VSet (x + 16) (VHi (VV 72) (VV 72));
   VSet (x + 0) (VLo (VV (x + 10)) (VV (x + 16)));
   VSet 115 (VXor (VV 115) (VV 72));
   VSet 73 (VXor (VMem128 false MState 7) (VMem128 false MInput 7));
   VSet (x + 17) (VV 73);
   VSet (x + 1) (VLo (VV (x + 11)) (VV (x + 17)));
   VSet (x + 18) (VHi (VV 73) (VV 73));
   VSet 117 (VXor (VV 117) (VV 73));
   VSet (x + 19) (VXor (VMem64 MState 9) (VMem64 MInput 9));
   VSet 126 (VXor (VV 126) (VV (x + 19)));
   VSet 74 (VXor (VMem128 true MState 10) (VMem128 false MInput 10));
   VSet (x + 20) (VV 74);
   VSet (x + 21) (VHi (VV 74) (VV 74));
   VSet 115 (VXor (VV 115) (VV 74));
   VSet 75 (VXor (VMem128 true MState 12) (VMem128 false MInput 12));
   VSet (x + 22) (VV 75);
   VSet (x + 23) (VHi (VV 75) (VV 75));
   VSet 117 (VXor (VV 117) (VV 75));
   VSet (x + 24) (VXor (VMem64 MState 14) (VMem64 MInput 14));
   VSet 126 (VXor (VV 126) (VV (x + 24)));
   VSet 76 (VXor (VMem128 false MState 15) (VMem128 false MInput 15));
   VSet (x + 25) (VV 76);
   VSet (x + 26) (VHi (VV 76) (VV 76));
   VSet (x + 5) (VLo (VV (x + 20)) (VV (x + 26)));
   VSet 115 (VXor (VV 115) (VV 76));
   VSet 77 (VXor (VMem128 false MState 17) (VMem64 MInput 17));
   VSet (x + 27) (VV 77);
   VSet (x + 6) (VLo (VV (x + 21)) (VV (x + 27)));
   VSet (x + 28) (VHi (VV 77) (VV 77));
   VSet 117 (VXor (VV 117) (VV 77));
   VSet (x + 29) (VMem64 MState 19);
   VSet 126 (VXor (VV 126) (VV (x + 29)));
   VSet 78 (VMem128 true MState 20);
   VSet (x + 30) (VV 78);
   VSet (x + 31) (VHi (VV 78) (VV 78));
   VSet 115 (VXor (VV 115) (VV 78));
   VSet 79 (VMem128 true MState 22);
   VSet (x + 32) (VV 79);
   VSet (x + 33) (VHi (VV 79) (VV 79));
   VSet 117 (VXor (VV 117) (VV 79));
   VSet (x + 34) (VMem64 MState 24);
   VSet 126 (VXor (VV 126) (VV (x + 34)))].
(** copyFromStateAndXor1344bits, KeccakF-1600-simd128.macros.h:493-547. *)
Definition v128_load1344 (x : nat) : vprog :=
  [VSet 70 (VXor (VMem128 true MState 0) (VMem128 false MInput 0));
   VSet (x + 10) (VV 70);
   VSet (x + 11) (VHi (VV 70) (VV 70));
   VSet 115 (VV 70);
   VSet 71 (VXor (VMem128 true MState 2) (VMem128 false MInput 2));
   VSet (x + 12) (VV 71);
   VSet (x + 13) (VHi (VV 71) (VV 71));
   VSet 117 (VV 71);
   VSet (x + 14) (VXor (VMem64 MState 4) (VMem64 MInput 4));
   VSet 126 (VV (x + 14));
   VSet 72 (VXor (VMem128 false MState 5) (VMem128 false MInput 5));
   VSet (x + 15) (VV 72);
   VSet (x + 16) (VHi (VV 72) (VV 72));
   VSet (x + 0) (VLo (VV (x + 10)) (VV (x + 16)));
   VSet 115 (VXor (VV 115) (VV 72));
   VSet 73 (VXor (VMem128 false MState 7) (VMem128 false MInput 7));
   VSet (x + 17) (VV 73);
   VSet (x + 1) (VLo (VV (x + 11)) (VV (x + 17)));
   VSet (x + 18) (VHi (VV 73) (VV 73));
   VSet 117 (VXor (VV 117) (VV 73));
   VSet (x + 19) (VXor (VMem64 MState 9) (VMem64 MInput 9));
   VSet 126 (VXor (VV 126) (VV (x + 19)));
   VSet 74 (VXor (VMem128 true MState 10) (VMem128 false MInput 10));
   VSet (x + 20) (VV 74);
   VSet (x + 21) (VHi (VV 74) (VV 74));
   VSet 115 (VXor (VV 115) (VV 74));
   VSet 75 (VXor (VMem128 true MState 12) (VMem128 false MInput 12));
   VSet (x + 22) (VV 75);
   VSet (x + 23) (VHi (VV 75) (VV 75));
   VSet 117 (VXor (VV 117) (VV 75));
   VSet (x + 24) (VXor (VMem64 MState 14) (VMem64 MInput 14));
   VSet 126 (VXor (VV 126) (VV (x + 24)));
   VSet 76 (VXor (VMem128 false MState 15) (VMem128 false MInput 15));
   VSet (x + 25) (VV 76);
   VSet (x + 26) (VHi (VV 76) (VV 76));
   VSet (x + 5) (VLo (VV (x + 20)) (VV (x + 26)));
   VSet 115 (VXor (VV 115) (VV 76));
   VSet 77 (VXor (VMem128 false MState 17) (VMem128 false MInput 17));
   VSet (x + 27) (VV 77);
   VSet (x + 6) (VLo (VV (x + 21)) (VV (x + 27)));
   VSet (x + 28) (VHi (VV 77) (VV 77));
   VSet 117 (VXor (VV 117) (VV 77));
   VSet (x + 29) (VXor (VMem64 MState 19) (VMem64 MInput 19));
   VSet 126 (VXor (VV 126) (VV (x + 29)));
   VSet 78 (VXor (VMem128 true MState 20) (VMem64 MInput 20));
   VSet (x + 30) (VV 78);
   VSet (x + 31) (VHi (VV 78) (VV 78));
   VSet 115 (VXor (VV 115) (VV 78));
   VSet 79 (VMem128 true MState 22);
   VSet (x + 32) (VV 79);
   VSet (x + 33) (VHi (VV 79) (VV 79));
   VSet 117 (VXor (VV 117) (VV 79));
   VSet (x + 34) (VMem64 MState 24);
   VSet 126 (VXor (VV 126) (VV (x + 34)))].
(** copyFromState, KeccakF-1600-simd128.macros.h:549-603. *)
Definition v128_load (x : nat) : vprog :=
  [VSet 70 (VMem128 true MState 0);
   VSet (x + 10) (VV 70);
   VSet (x + 11) (VHi (VV 70) (VV 70));
   VSet 115 (VV 70);
   VSet 71 (VMem128 true MState 2);
   VSet (x + 12) (VV 71);
   VSet (x + 13) (VHi (VV 71) (VV 71));
   VSet 117 (VV 71);
   VSet (x + 14) (VMem64 MState 4);
   VSet 126 (VV (x + 14));
   VSet 72 (VMem128 false MState 5);
   VSet (x + 15) (VV 72);
   VSet (x + 16) (VHi (VV 72) (VV 72));
   VSet (x + 0) (VLo (VV (x + 10)) (VV (x + 16)));
   VSet 115 (VXor (VV 115) (VV 72));
   VSet 73 (VMem128 false MState 7);
   VSet (x + 17) (VV 73);
   VSet (x + 1) (VLo (VV (x + 11)) (VV (x + 17)));
   VSet (x + 18) (VHi (VV 73) (VV 73));
   VSet 117 (VXor (VV 117) (VV 73));
   VSet (x + 19) (VMem64 MState 9);
   VSet 126 (VXor (VV 126) (VV (x + 19)));
   VSet 74 (VMem128 true MState 10);
   VSet (x + 20) (VV 74);
   VSet (x + 21) (VHi (VV 74) (VV 74));
   VSet 115 (VXor (VV 115) (VV 74));
   VSet 75 (VMem128 true MState 12);
   VSet (x + 22) (VV 75);
   VSet (x + 23) (VHi (VV 75) (VV 75));
   VSet 117 (VXor (VV 117) (VV 75));
   VSet (x + 24) (VMem64 MState 14);
   VSet 126 (VXor (VV 126) (VV (x + 24)));
   VSet 76 (VMem128 false MState 15);
   VSet (x + 25) (VV 76);
   VSet (x + 26) (VHi (VV 76) (VV 76));
   VSet (x + 5) (VLo (VV (x + 20)) (VV (x + 26)));
   VSet 115 (VXor (VV 115) (VV 76));
   VSet 77 (VMem128 false MState 17);
   VSet (x + 27) (VV 77);
   VSet (x + 6) (VLo (VV (x + 21)) (VV (x + 27)));
   VSet (x + 28) (VHi (VV 77) (VV 77));
   VSet 117 (VXor (VV 117) (VV 77));
   VSet (x + 29) (VMem64 MState 19);
   VSet 126 (VXor (VV 126) (VV (x + 29)));
   VSet 78 (VMem128 true MState 20);
   VSet (x + 30) (VV 78);
   VSet (x + 31) (VHi (VV 78) (VV 78));
   VSet 115 (VXor (VV 115) (VV 78));
   VSet 79 (VMem128 true MState 22);
   VSet (x + 32) (VV 79);
   VSet (x + 33) (VHi (VV 79) (VV 79));
   VSet 117 (VXor (VV 117) (VV 79));
   VSet (x + 34) (VMem64 MState 24);
   VSet 126 (VXor (VV 126) (VV (x + 34)))].
(** copyStateVariables, KeccakF-1600-simd128.macros.h:632-653. *)
Definition v128_copy (x y : nat) : vprog :=
  [VSet (x + 0) (VV (y + 0));
   VSet (x + 1) (VV (y + 1));
   VSet (x + 12) (VV (y + 12));
   VSet (x + 13) (VV (y + 13));
   VSet (x + 14) (VV (y + 14));
   VSet (x + 15) (VV (y + 15));
   VSet (x + 18) (VV (y + 18));
   VSet (x + 19) (VV (y + 19));
   VSet (x + 5) (VV (y + 5));
   VSet (x + 6) (VV (y + 6));
   VSet (x + 22) (VV (y + 22));
   VSet (x + 23) (VV (y + 23));
   VSet (x + 24) (VV (y + 24));
   VSet (x + 25) (VV (y + 25));
   VSet (x + 28) (VV (y + 28));
   VSet (x + 29) (VV (y + 29));
   VSet (x + 30) (VV (y + 30));
   VSet (x + 31) (VV (y + 31));
   VSet (x + 32) (VV (y + 32));
   VSet (x + 33) (VV (y + 33));
   VSet (x + 34) (VV (y + 34))].
(** copyToState, KeccakF-1600-simd128.macros.h:605-630: A##bage and A##begi are Abage and Abegi, whatever X is. *)
Definition v128_store (x : nat) : vprog :=
  [VStoreHalf 0 0 false;
   VStoreHalf 1 1 false;
   VStore 2 (VV (x + 12));
   VStore 3 (VV (x + 13));
   VStore 4 (VV (x + 14));
   VStore 5 (VV (x + 15));
   VStoreHalf 6 0 true;
   VStoreHalf 7 1 true;
   VStore 8 (VV (x + 18));
   VStore 9 (VV (x + 19));
   VStoreHalf 10 (x + 5) false;
   VStoreHalf 11 (x + 6) false;
   VStore 12 (VV (x + 22));
   VStore 13 (VV (x + 23));
   VStore 14 (VV (x + 24));
   VStore 15 (VV (x + 25));
   VStoreHalf 16 (x + 5) true;
   VStoreHalf 17 (x + 6) true;
   VStore 18 (VV (x + 28));
   VStore 19 (VV (x + 29));
   VStore 20 (VV (x + 30));
   VStore 21 (VV (x + 31));
   VStore 22 (VV (x + 32));
   VStore 23 (VV (x + 33));
   VStore 24 (VV (x + 34))].

(** ** KeccakF-1600-unrolling.macros.h *)
(** The macros that the definitions of rounds call: a round, the last round, and the copy. *)
Inductive call := Rd (off : nat) (x y : bool) | Last (off : nat) (x y : bool) | Copy (x y : bool).
(** Which lanes a macro works on, A (false) or E (true), as in KeccakF-1600-unrolling.macros.h:18. *)
Definition A_ : bool := false.
Definition E_ : bool := true.
(** Unrolling == 24, KeccakF-1600-unrolling.macros.h:15-41: no loop. *)
Definition body24 : list call := [Rd 0 A_ E_; Rd 1 E_ A_; Rd 2 A_ E_; Rd 3 E_ A_; Rd 4 A_ E_; Rd 5 E_ A_; Rd 6 A_ E_; Rd 7 E_ A_; Rd 8 A_ E_; Rd 9 E_ A_; Rd 10 A_ E_; Rd 11 E_ A_; Rd 12 A_ E_; Rd 13 E_ A_; Rd 14 A_ E_; Rd 15 E_ A_; Rd 16 A_ E_; Rd 17 E_ A_; Rd 18 A_ E_; Rd 19 E_ A_; Rd 20 A_ E_; Rd 21 E_ A_; Rd 22 A_ E_; Last 23 E_ A_].
(** Unrolling == 12, KeccakF-1600-unrolling.macros.h:43-59: the body of the loop. *)
Definition body12 : list call := [Rd 0 A_ E_; Rd 1 E_ A_; Rd 2 A_ E_; Rd 3 E_ A_; Rd 4 A_ E_; Rd 5 E_ A_; Rd 6 A_ E_; Rd 7 E_ A_; Rd 8 A_ E_; Rd 9 E_ A_; Rd 10 A_ E_; Rd 11 E_ A_].
(** Unrolling == 8, KeccakF-1600-unrolling.macros.h:61-73: the body of the loop. *)
Definition body8 : list call := [Rd 0 A_ E_; Rd 1 E_ A_; Rd 2 A_ E_; Rd 3 E_ A_; Rd 4 A_ E_; Rd 5 E_ A_; Rd 6 A_ E_; Rd 7 E_ A_].
(** Unrolling == 6, KeccakF-1600-unrolling.macros.h:75-85: the body of the loop. *)
Definition body6 : list call := [Rd 0 A_ E_; Rd 1 E_ A_; Rd 2 A_ E_; Rd 3 E_ A_; Rd 4 A_ E_; Rd 5 E_ A_].
(** Unrolling == 4, KeccakF-1600-unrolling.macros.h:87-95: the body of the loop. *)
Definition body4 : list call := [Rd 0 A_ E_; Rd 1 E_ A_; Rd 2 A_ E_; Rd 3 E_ A_].
(** Unrolling == 3, KeccakF-1600-unrolling.macros.h:97-105: the body of the loop. *)
Definition body3 : list call := [Rd 0 A_ E_; Rd 1 E_ A_; Rd 2 A_ E_; Copy A_ E_].
(** Unrolling == 2, KeccakF-1600-unrolling.macros.h:107-113: the body of the loop. *)
Definition body2 : list call := [Rd 0 A_ E_; Rd 1 E_ A_].
(** Unrolling == 1, KeccakF-1600-unrolling.macros.h:115-121: the body of the loop. *)
Definition body1 : list call := [Rd 0 A_ E_; Copy A_ E_].
(** The unrollings there are, KeccakF-1600-unrolling.macros.h:15-124, with the step of the loop (24: no loop). *)
Definition unrollings : list (nat * list call) := [(24, body24); (12, body12); (8, body8); (6, body6); (4, body4); (3, body3); (2, body2); (1, body1)].

(** Generated by tools/threefish_prog.py from threefish/threefish256.go,
    threefish512.go and threefish1024.go: the bodies of encrypt and decrypt, one
    assignment per Go statement.  With n words of state, register i < n is b_i,
    register n+i is k_i, register 2n+1+i is t_i, register 2n+4 is tmp.
    ((x << k) | (x >> (64 - k))) is written [URotl k], ((x >> k) | (x << (64 - k)))
    is written [URotr k]; these are the definitions of rotlw and rotrw in Words.v. *)
From Coq Require Import NArith List.
From Verif Require Import SLP.
Import ListNotations.
Open Scope N_scope.

(** threefish256.go:100-423. *)
Definition enc256_groups : list prog :=
  [[Set_ 1 (E2 BAdd (EV 1) (E2 BAdd (EV 5) (EV 9)));
    Set_ 0 (E2 BAdd (EV 0) (E2 BAdd (EV 1) (EV 4)));
    Set_ 1 (E2 BXor (E1 (URotl 14) (EV 1)) (EV 0));
    Set_ 3 (E2 BAdd (EV 3) (EV 7));
    Set_ 2 (E2 BAdd (EV 2) (E2 BAdd (E2 BAdd (EV 3) (EV 6)) (EV 10)));
    Set_ 3 (E2 BXor (E1 (URotl 16) (EV 3)) (EV 2));
    Set_ 0 (E2 BAdd (EV 0) (EV 3));
    Set_ 3 (E2 BXor (E1 (URotl 52) (EV 3)) (EV 0));
    Set_ 2 (E2 BAdd (EV 2) (EV 1));
    Set_ 1 (E2 BXor (E1 (URotl 57) (EV 1)) (EV 2));
    Set_ 0 (E2 BAdd (EV 0) (EV 1));
    Set_ 1 (E2 BXor (E1 (URotl 23) (EV 1)) (EV 0));
    Set_ 2 (E2 BAdd (EV 2) (EV 3));
    Set_ 3 (E2 BXor (E1 (URotl 40) (EV 3)) (EV 2));
    Set_ 0 (E2 BAdd (EV 0) (EV 3));
    Set_ 3 (E2 BXor (E1 (URotl 5) (EV 3)) (EV 0));
    Set_ 2 (E2 BAdd (EV 2) (EV 1));
    Set_ 1 (E2 BXor (E1 (URotl 37) (EV 1)) (EV 2))];
   [Set_ 1 (E2 BAdd (EV 1) (E2 BAdd (EV 6) (EV 10)));
    Set_ 0 (E2 BAdd (EV 0) (E2 BAdd (EV 1) (EV 5)));
    Set_ 1 (E2 BXor (E1 (URotl 25) (EV 1)) (EV 0));
    Set_ 3 (E2 BAdd (EV 3) (E2 BAdd (EV 8) (EC 1)));
    Set_ 2 (E2 BAdd (EV 2) (E2 BAdd (E2 BAdd (EV 3) (EV 7)) (EV 11)));
    Set_ 3 (E2 BXor (E1 (URotl 33) (EV 3)) (EV 2));
    Set_ 0 (E2 BAdd (EV 0) (EV 3));
    Set_ 3 (E2 BXor (E1 (URotl 46) (EV 3)) (EV 0));
    Set_ 2 (E2 BAdd (EV 2) (EV 1));
    Set_ 1 (E2 BXor (E1 (URotl 12) (EV 1)) (EV 2));
    Set_ 0 (E2 BAdd (EV 0) (EV 1));
    Set_ 1 (E2 BXor (E1 (URotl 58) (EV 1)) (EV 0));
    Set_ 2 (E2 BAdd (EV 2) (EV 3));
    Set_ 3 (E2 BXor (E1 (URotl 22) (EV 3)) (EV 2));
    Set_ 0 (E2 BAdd (EV 0) (EV 3));
    Set_ 3 (E2 BXor (E1 (URotl 32) (EV 3)) (EV 0));
    Set_ 2 (E2 BAdd (EV 2) (EV 1));
    Set_ 1 (E2 BXor (E1 (URotl 32) (EV 1)) (EV 2))];
   [Set_ 1 (E2 BAdd (EV 1) (E2 BAdd (EV 7) (EV 11)));
    Set_ 0 (E2 BAdd (EV 0) (E2 BAdd (EV 1) (EV 6)));
    Set_ 1 (E2 BXor (E1 (URotl 14) (EV 1)) (EV 0));
    Set_ 3 (E2 BAdd (EV 3) (E2 BAdd (EV 4) (EC 2)));
    Set_ 2 (E2 BAdd (EV 2) (E2 BAdd (E2 BAdd (EV 3) (EV 8)) (EV 9)));
    Set_ 3 (E2 BXor (E1 (URotl 16) (EV 3)) (EV 2));
    Set_ 0 (E2 BAdd (EV 0) (EV 3));
    Set_ 3 (E2 BXor (E1 (URotl 52) (EV 3)) (EV 0));
    Set_ 2 (E2 BAdd (EV 2) (EV 1));
    Set_ 1 (E2 BXor (E1 (URotl 57) (EV 1)) (EV 2));
    Set_ 0 (E2 BAdd (EV 0) (EV 1));
    Set_ 1 (E2 BXor (E1 (URotl 23) (EV 1)) (EV 0));
    Set_ 2 (E2 BAdd (EV 2) (EV 3));
    Set_ 3 (E2 BXor (E1 (URotl 40) (EV 3)) (EV 2));
    Set_ 0 (E2 BAdd (EV 0) (EV 3));
    Set_ 3 (E2 BXor (E1 (URotl 5) (EV 3)) (EV 0));
    Set_ 2 (E2 BAdd (EV 2) (EV 1));
    Set_ 1 (E2 BXor (E1 (URotl 37) (EV 1)) (EV 2))];
   [Set_ 1 (E2 BAdd (EV 1) (E2 BAdd (EV 8) (EV 9)));
    Set_ 0 (E2 BAdd (EV 0) (E2 BAdd (EV 1) (EV 7)));
    Set_ 1 (E2 BXor (E1 (URotl 25) (EV 1)) (EV 0));
    Set_ 3 (E2 BAdd (EV 3) (E2 BAdd (EV 5) (EC 3)));
    Set_ 2 (E2 BAdd (EV 2) (E2 BAdd (E2 BAdd (EV 3) (EV 4)) (EV 10)));
    Set_ 3 (E2 BXor (E1 (URotl 33) (EV 3)) (EV 2));
    Set_ 0 (E2 BAdd (EV 0) (EV 3));
    Set_ 3 (E2 BXor (E1 (URotl 46) (EV 3)) (EV 0));
    Set_ 2 (E2 BAdd (EV 2) (EV 1));
    Set_ 1 (E2 BXor (E1 (URotl 12) (EV 1)) (EV 2));
    Set_ 0 (E2 BAdd (EV 0) (EV 1));
    Set_ 1 (E2 BXor (E1 (URotl 58) (EV 1)) (EV 0));
    Set_ 2 (E2 BAdd (EV 2) (EV 3));
    Set_ 3 (E2 BXor (E1 (URotl 22) (EV 3)) (EV 2));
    Set_ 0 (E2 BAdd (EV 0) (EV 3));
    Set_ 3 (E2 BXor (E1 (URotl 32) (EV 3)) (EV 0));
    Set_ 2 (E2 BAdd (EV 2) (EV 1));
    Set_ 1 (E2 BXor (E1 (URotl 32) (EV 1)) (EV 2))];
   [Set_ 1 (E2 BAdd (EV 1) (E2 BAdd (EV 4) (EV 10)));
    Set_ 0 (E2 BAdd (EV 0) (E2 BAdd (EV 1) (EV 8)));
    Set_ 1 (E2 BXor (E1 (URotl 14) (EV 1)) (EV 0));
    Set_ 3 (E2 BAdd (EV 3) (E2 BAdd (EV 6) (EC 4)));
    Set_ 2 (E2 BAdd (EV 2) (E2 BAdd (E2 BAdd (EV 3) (EV 5)) (EV 11)));
    Set_ 3 (E2 BXor (E1 (URotl 16) (EV 3)) (EV 2));
    Set_ 0 (E2 BAdd (EV 0) (EV 3));
    Set_ 3 (E2 BXor (E1 (URotl 52) (EV 3)) (EV 0));
    Set_ 2 (E2 BAdd (EV 2) (EV 1));
    Set_ 1 (E2 BXor (E1 (URotl 57) (EV 1)) (EV 2));
    Set_ 0 (E2 BAdd (EV 0) (EV 1));
    Set_ 1 (E2 BXor (E1 (URotl 23) (EV 1)) (EV 0));
    Set_ 2 (E2 BAdd (EV 2) (EV 3));
    Set_ 3 (E2 BXor (E1 (URotl 40) (EV 3)) (EV 2));
    Set_ 0 (E2 BAdd (EV 0) (EV 3));
    Set_ 3 (E2 BXor (E1 (URotl 5) (EV 3)) (EV 0));
    Set_ 2 (E2 BAdd (EV 2) (EV 1));
    Set_ 1 (E2 BXor (E1 (URotl 37) (EV 1)) (EV 2))];
   [Set_ 1 (E2 BAdd (EV 1) (E2 BAdd (EV 5) (EV 11)));
    Set_ 0 (E2 BAdd (EV 0) (E2 BAdd (EV 1) (EV 4)));
    Set_ 1 (E2 BXor (E1 (URotl 25) (EV 1)) (EV 0));
    Set_ 3 (E2 BAdd (EV 3) (E2 BAdd (EV 7) (EC 5)));
    Set_ 2 (E2 BAdd (EV 2) (E2 BAdd (E2 BAdd (EV 3) (EV 6)) (EV 9)));
    Set_ 3 (E2 BXor (E1 (URotl 33) (EV 3)) (EV 2));
    Set_ 0 (E2 BAdd (EV 0) (EV 3));
    Set_ 3 (E2 BXor (E1 (URotl 46) (EV 3)) (EV 0));
    Set_ 2 (E2 BAdd (EV 2) (EV 1));
    Set_ 1 (E2 BXor (E1 (URotl 12) (EV 1)) (EV 2));
    Set_ 0 (E2 BAdd (EV 0) (EV 1));
    Set_ 1 (E2 BXor (E1 (URotl 58) (EV 1)) (EV 0));
    Set_ 2 (E2 BAdd (EV 2) (EV 3));
    Set_ 3 (E2 BXor (E1 (URotl 22) (EV 3)) (EV 2));
    Set_ 0 (E2 BAdd (EV 0) (EV 3));
    Set_ 3 (E2 BXor (E1 (URotl 32) (EV 3)) (EV 0));
    Set_ 2 (E2 BAdd (EV 2) (EV 1));
    Set_ 1 (E2 BXor (E1 (URotl 32) (EV 1)) (EV 2))];
   [Set_ 1 (E2 BAdd (EV 1) (E2 BAdd (EV 6) (EV 9)));
    Set_ 0 (E2 BAdd (EV 0) (E2 BAdd (EV 1) (EV 5)));
    Set_ 1 (E2 BXor (E1 (URotl 14) (EV 1)) (EV 0));
    Set_ 3 (E2 BAdd (EV 3) (E2 BAdd (EV 8) (EC 6)));
    Set_ 2 (E2 BAdd (EV 2) (E2 BAdd (E2 BAdd (EV 3) (EV 7)) (EV 10)));
    Set_ 3 (E2 BXor (E1 (URotl 16) (EV 3)) (EV 2));
    Set_ 0 (E2 BAdd (EV 0) (EV 3));
    Set_ 3 (E2 BXor (E1 (URotl 52) (EV 3)) (EV 0));
    Set_ 2 (E2 BAdd (EV 2) (EV 1));
    Set_ 1 (E2 BXor (E1 (URotl 57) (EV 1)) (EV 2));
    Set_ 0 (E2 BAdd (EV 0) (EV 1));
    Set_ 1 (E2 BXor (E1 (URotl 23) (EV 1)) (EV 0));
    Set_ 2 (E2 BAdd (EV 2) (EV 3));
    Set_ 3 (E2 BXor (E1 (URotl 40) (EV 3)) (EV 2));
    Set_ 0 (E2 BAdd (EV 0) (EV 3));
    Set_ 3 (E2 BXor (E1 (URotl 5) (EV 3)) (EV 0));
    Set_ 2 (E2 BAdd (EV 2) (EV 1));
    Set_ 1 (E2 BXor (E1 (URotl 37) (EV 1)) (EV 2))];
   [Set_ 1 (E2 BAdd (EV 1) (E2 BAdd (EV 7) (EV 10)));
    Set_ 0 (E2 BAdd (EV 0) (E2 BAdd (EV 1) (EV 6)));
    Set_ 1 (E2 BXor (E1 (URotl 25) (EV 1)) (EV 0));
    Set_ 3 (E2 BAdd (EV 3) (E2 BAdd (EV 4) (EC 7)));
    Set_ 2 (E2 BAdd (EV 2) (E2 BAdd (E2 BAdd (EV 3) (EV 8)) (EV 11)));
    Set_ 3 (E2 BXor (E1 (URotl 33) (EV 3)) (EV 2));
    Set_ 0 (E2 BAdd (EV 0) (EV 3));
    Set_ 3 (E2 BXor (E1 (URotl 46) (EV 3)) (EV 0));
    Set_ 2 (E2 BAdd (EV 2) (EV 1));
    Set_ 1 (E2 BXor (E1 (URotl 12) (EV 1)) (EV 2));
    Set_ 0 (E2 BAdd (EV 0) (EV 1));
    Set_ 1 (E2 BXor (E1 (URotl 58) (EV 1)) (EV 0));
    Set_ 2 (E2 BAdd (EV 2) (EV 3));
    Set_ 3 (E2 BXor (E1 (URotl 22) (EV 3)) (EV 2));
    Set_ 0 (E2 BAdd (EV 0) (EV 3));
    Set_ 3 (E2 BXor (E1 (URotl 32) (EV 3)) (EV 0));
    Set_ 2 (E2 BAdd (EV 2) (EV 1));
    Set_ 1 (E2 BXor (E1 (URotl 32) (EV 1)) (EV 2))];
   [Set_ 1 (E2 BAdd (EV 1) (E2 BAdd (EV 8) (EV 11)));
    Set_ 0 (E2 BAdd (EV 0) (E2 BAdd (EV 1) (EV 7)));
    Set_ 1 (E2 BXor (E1 (URotl 14) (EV 1)) (EV 0));
    Set_ 3 (E2 BAdd (EV 3) (E2 BAdd (EV 5) (EC 8)));
    Set_ 2 (E2 BAdd (EV 2) (E2 BAdd (E2 BAdd (EV 3) (EV 4)) (EV 9)));
    Set_ 3 (E2 BXor (E1 (URotl 16) (EV 3)) (EV 2));
    Set_ 0 (E2 BAdd (EV 0) (EV 3));
    Set_ 3 (E2 BXor (E1 (URotl 52) (EV 3)) (EV 0));
    Set_ 2 (E2 BAdd (EV 2) (EV 1));
    Set_ 1 (E2 BXor (E1 (URotl 57) (EV 1)) (EV 2));
    Set_ 0 (E2 BAdd (EV 0) (EV 1));
    Set_ 1 (E2 BXor (E1 (URotl 23) (EV 1)) (EV 0));
    Set_ 2 (E2 BAdd (EV 2) (EV 3));
    Set_ 3 (E2 BXor (E1 (URotl 40) (EV 3)) (EV 2));
    Set_ 0 (E2 BAdd (EV 0) (EV 3));
    Set_ 3 (E2 BXor (E1 (URotl 5) (EV 3)) (EV 0));
    Set_ 2 (E2 BAdd (EV 2) (EV 1));
    Set_ 1 (E2 BXor (E1 (URotl 37) (EV 1)) (EV 2))];
   [Set_ 1 (E2 BAdd (EV 1) (E2 BAdd (EV 4) (EV 9)));
    Set_ 0 (E2 BAdd (EV 0) (E2 BAdd (EV 1) (EV 8)));
    Set_ 1 (E2 BXor (E1 (URotl 25) (EV 1)) (EV 0));
    Set_ 3 (E2 BAdd (EV 3) (E2 BAdd (EV 6) (EC 9)));
    Set_ 2 (E2 BAdd (EV 2) (E2 BAdd (E2 BAdd (EV 3) (EV 5)) (EV 10)));
    Set_ 3 (E2 BXor (E1 (URotl 33) (EV 3)) (EV 2));
    Set_ 0 (E2 BAdd (EV 0) (EV 3));
    Set_ 3 (E2 BXor (E1 (URotl 46) (EV 3)) (EV 0));
    Set_ 2 (E2 BAdd (EV 2) (EV 1));
    Set_ 1 (E2 BXor (E1 (URotl 12) (EV 1)) (EV 2));
    Set_ 0 (E2 BAdd (EV 0) (EV 1));
    Set_ 1 (E2 BXor (E1 (URotl 58) (EV 1)) (EV 0));
    Set_ 2 (E2 BAdd (EV 2) (EV 3));
    Set_ 3 (E2 BXor (E1 (URotl 22) (EV 3)) (EV 2));
    Set_ 0 (E2 BAdd (EV 0) (EV 3));
    Set_ 3 (E2 BXor (E1 (URotl 32) (EV 3)) (EV 0));
    Set_ 2 (E2 BAdd (EV 2) (EV 1));
    Set_ 1 (E2 BXor (E1 (URotl 32) (EV 1)) (EV 2))];
   [Set_ 1 (E2 BAdd (EV 1) (E2 BAdd (EV 5) (EV 10)));
    Set_ 0 (E2 BAdd (EV 0) (E2 BAdd (EV 1) (EV 4)));
    Set_ 1 (E2 BXor (E1 (URotl 14) (EV 1)) (EV 0));
    Set_ 3 (E2 BAdd (EV 3) (E2 BAdd (EV 7) (EC 10)));
    Set_ 2 (E2 BAdd (EV 2) (E2 BAdd (E2 BAdd (EV 3) (EV 6)) (EV 11)));
    Set_ 3 (E2 BXor (E1 (URotl 16) (EV 3)) (EV 2));
    Set_ 0 (E2 BAdd (EV 0) (EV 3));
    Set_ 3 (E2 BXor (E1 (URotl 52) (EV 3)) (EV 0));
    Set_ 2 (E2 BAdd (EV 2) (EV 1));
    Set_ 1 (E2 BXor (E1 (URotl 57) (EV 1)) (EV 2));
    Set_ 0 (E2 BAdd (EV 0) (EV 1));
    Set_ 1 (E2 BXor (E1 (URotl 23) (EV 1)) (EV 0));
    Set_ 2 (E2 BAdd (EV 2) (EV 3));
    Set_ 3 (E2 BXor (E1 (URotl 40) (EV 3)) (EV 2));
    Set_ 0 (E2 BAdd (EV 0) (EV 3));
    Set_ 3 (E2 BXor (E1 (URotl 5) (EV 3)) (EV 0));
    Set_ 2 (E2 BAdd (EV 2) (EV 1));
    Set_ 1 (E2 BXor (E1 (URotl 37) (EV 1)) (EV 2))];
   [Set_ 1 (E2 BAdd (EV 1) (E2 BAdd (EV 6) (EV 11)));
    Set_ 0 (E2 BAdd (EV 0) (E2 BAdd (EV 1) (EV 5)));
    Set_ 1 (E2 BXor (E1 (URotl 25) (EV 1)) (EV 0));
    Set_ 3 (E2 BAdd (EV 3) (E2 BAdd (EV 8) (EC 11)));
    Set_ 2 (E2 BAdd (EV 2) (E2 BAdd (E2 BAdd (EV 3) (EV 7)) (EV 9)));
    Set_ 3 (E2 BXor (E1 (URotl 33) (EV 3)) (EV 2));
    Set_ 0 (E2 BAdd (EV 0) (EV 3));
    Set_ 3 (E2 BXor (E1 (URotl 46) (EV 3)) (EV 0));
    Set_ 2 (E2 BAdd (EV 2) (EV 1));
    Set_ 1 (E2 BXor (E1 (URotl 12) (EV 1)) (EV 2));
    Set_ 0 (E2 BAdd (EV 0) (EV 1));
    Set_ 1 (E2 BXor (E1 (URotl 58) (EV 1)) (EV 0));
    Set_ 2 (E2 BAdd (EV 2) (EV 3));
    Set_ 3 (E2 BXor (E1 (URotl 22) (EV 3)) (EV 2));
    Set_ 0 (E2 BAdd (EV 0) (EV 3));
    Set_ 3 (E2 BXor (E1 (URotl 32) (EV 3)) (EV 0));
    Set_ 2 (E2 BAdd (EV 2) (EV 1));
    Set_ 1 (E2 BXor (E1 (URotl 32) (EV 1)) (EV 2))];
   [Set_ 1 (E2 BAdd (EV 1) (E2 BAdd (EV 7) (EV 9)));
    Set_ 0 (E2 BAdd (EV 0) (E2 BAdd (EV 1) (EV 6)));
    Set_ 1 (E2 BXor (E1 (URotl 14) (EV 1)) (EV 0));
    Set_ 3 (E2 BAdd (EV 3) (E2 BAdd (EV 4) (EC 12)));
    Set_ 2 (E2 BAdd (EV 2) (E2 BAdd (E2 BAdd (EV 3) (EV 8)) (EV 10)));
    Set_ 3 (E2 BXor (E1 (URotl 16) (EV 3)) (EV 2));
    Set_ 0 (E2 BAdd (EV 0) (EV 3));
    Set_ 3 (E2 BXor (E1 (URotl 52) (EV 3)) (EV 0));
    Set_ 2 (E2 BAdd (EV 2) (EV 1));
    Set_ 1 (E2 BXor (E1 (URotl 57) (EV 1)) (EV 2));
    Set_ 0 (E2 BAdd (EV 0) (EV 1));
    Set_ 1 (E2 BXor (E1 (URotl 23) (EV 1)) (EV 0));
    Set_ 2 (E2 BAdd (EV 2) (EV 3));
    Set_ 3 (E2 BXor (E1 (URotl 40) (EV 3)) (EV 2));
    Set_ 0 (E2 BAdd (EV 0) (EV 3));
    Set_ 3 (E2 BXor (E1 (URotl 5) (EV 3)) (EV 0));
    Set_ 2 (E2 BAdd (EV 2) (EV 1));
    Set_ 1 (E2 BXor (E1 (URotl 37) (EV 1)) (EV 2))];
   [Set_ 1 (E2 BAdd (EV 1) (E2 BAdd (EV 8) (EV 10)));
    Set_ 0 (E2 BAdd (EV 0) (E2 BAdd (EV 1) (EV 7)));
    Set_ 1 (E2 BXor (E1 (URotl 25) (EV 1)) (EV 0));
    Set_ 3 (E2 BAdd (EV 3) (E2 BAdd (EV 5) (EC 13)));
    Set_ 2 (E2 BAdd (EV 2) (E2 BAdd (E2 BAdd (EV 3) (EV 4)) (EV 11)));
    Set_ 3 (E2 BXor (E1 (URotl 33) (EV 3)) (EV 2));
    Set_ 0 (E2 BAdd (EV 0) (EV 3));
    Set_ 3 (E2 BXor (E1 (URotl 46) (EV 3)) (EV 0));
    Set_ 2 (E2 BAdd (EV 2) (EV 1));
    Set_ 1 (E2 BXor (E1 (URotl 12) (EV 1)) (EV 2));
    Set_ 0 (E2 BAdd (EV 0) (EV 1));
    Set_ 1 (E2 BXor (E1 (URotl 58) (EV 1)) (EV 0));
    Set_ 2 (E2 BAdd (EV 2) (EV 3));
    Set_ 3 (E2 BXor (E1 (URotl 22) (EV 3)) (EV 2));
    Set_ 0 (E2 BAdd (EV 0) (EV 3));
    Set_ 3 (E2 BXor (E1 (URotl 32) (EV 3)) (EV 0));
    Set_ 2 (E2 BAdd (EV 2) (EV 1));
    Set_ 1 (E2 BXor (E1 (URotl 32) (EV 1)) (EV 2))];
   [Set_ 1 (E2 BAdd (EV 1) (E2 BAdd (EV 4) (EV 11)));
    Set_ 0 (E2 BAdd (EV 0) (E2 BAdd (EV 1) (EV 8)));
    Set_ 1 (E2 BXor (E1 (URotl 14) (EV 1)) (EV 0));
    Set_ 3 (E2 BAdd (EV 3) (E2 BAdd (EV 6) (EC 14)));
    Set_ 2 (E2 BAdd (EV 2) (E2 BAdd (E2 BAdd (EV 3) (EV 5)) (EV 9)));
    Set_ 3 (E2 BXor (E1 (URotl 16) (EV 3)) (EV 2));
    Set_ 0 (E2 BAdd (EV 0) (EV 3));
    Set_ 3 (E2 BXor (E1 (URotl 52) (EV 3)) (EV 0));
    Set_ 2 (E2 BAdd (EV 2) (EV 1));
    Set_ 1 (E2 BXor (E1 (URotl 57) (EV 1)) (EV 2));
    Set_ 0 (E2 BAdd (EV 0) (EV 1));
    Set_ 1 (E2 BXor (E1 (URotl 23) (EV 1)) (EV 0));
    Set_ 2 (E2 BAdd (EV 2) (EV 3));
    Set_ 3 (E2 BXor (E1 (URotl 40) (EV 3)) (EV 2));
    Set_ 0 (E2 BAdd (EV 0) (EV 3));
    Set_ 3 (E2 BXor (E1 (URotl 5) (EV 3)) (EV 0));
    Set_ 2 (E2 BAdd (EV 2) (EV 1));
    Set_ 1 (E2 BXor (E1 (URotl 37) (EV 1)) (EV 2))];
   [Set_ 1 (E2 BAdd (EV 1) (E2 BAdd (EV 5) (EV 9)));
    Set_ 0 (E2 BAdd (EV 0) (E2 BAdd (EV 1) (EV 4)));
    Set_ 1 (E2 BXor (E1 (URotl 25) (EV 1)) (EV 0));
    Set_ 3 (E2 BAdd (EV 3) (E2 BAdd (EV 7) (EC 15)));
    Set_ 2 (E2 BAdd (EV 2) (E2 BAdd (E2 BAdd (EV 3) (EV 6)) (EV 10)));
    Set_ 3 (E2 BXor (E1 (URotl 33) (EV 3)) (EV 2));
    Set_ 0 (E2 BAdd (EV 0) (EV 3));
    Set_ 3 (E2 BXor (E1 (URotl 46) (EV 3)) (EV 0));
    Set_ 2 (E2 BAdd (EV 2) (EV 1));
    Set_ 1 (E2 BXor (E1 (URotl 12) (EV 1)) (EV 2));
    Set_ 0 (E2 BAdd (EV 0) (EV 1));
    Set_ 1 (E2 BXor (E1 (URotl 58) (EV 1)) (EV 0));
    Set_ 2 (E2 BAdd (EV 2) (EV 3));
    Set_ 3 (E2 BXor (E1 (URotl 22) (EV 3)) (EV 2));
    Set_ 0 (E2 BAdd (EV 0) (EV 3));
    Set_ 3 (E2 BXor (E1 (URotl 32) (EV 3)) (EV 0));
    Set_ 2 (E2 BAdd (EV 2) (EV 1));
    Set_ 1 (E2 BXor (E1 (URotl 32) (EV 1)) (EV 2))];
   [Set_ 1 (E2 BAdd (EV 1) (E2 BAdd (EV 6) (EV 10)));
    Set_ 0 (E2 BAdd (EV 0) (E2 BAdd (EV 1) (EV 5)));
    Set_ 1 (E2 BXor (E1 (URotl 14) (EV 1)) (EV 0));
    Set_ 3 (E2 BAdd (EV 3) (E2 BAdd (EV 8) (EC 16)));
    Set_ 2 (E2 BAdd (EV 2) (E2 BAdd (E2 BAdd (EV 3) (EV 7)) (EV 11)));
    Set_ 3 (E2 BXor (E1 (URotl 16) (EV 3)) (EV 2));
    Set_ 0 (E2 BAdd (EV 0) (EV 3));
    Set_ 3 (E2 BXor (E1 (URotl 52) (EV 3)) (EV 0));
    Set_ 2 (E2 BAdd (EV 2) (EV 1));
    Set_ 1 (E2 BXor (E1 (URotl 57) (EV 1)) (EV 2));
    Set_ 0 (E2 BAdd (EV 0) (EV 1));
    Set_ 1 (E2 BXor (E1 (URotl 23) (EV 1)) (EV 0));
    Set_ 2 (E2 BAdd (EV 2) (EV 3));
    Set_ 3 (E2 BXor (E1 (URotl 40) (EV 3)) (EV 2));
    Set_ 0 (E2 BAdd (EV 0) (EV 3));
    Set_ 3 (E2 BXor (E1 (URotl 5) (EV 3)) (EV 0));
    Set_ 2 (E2 BAdd (EV 2) (EV 1));
    Set_ 1 (E2 BXor (E1 (URotl 37) (EV 1)) (EV 2))];
   [Set_ 1 (E2 BAdd (EV 1) (E2 BAdd (EV 7) (EV 11)));
    Set_ 0 (E2 BAdd (EV 0) (E2 BAdd (EV 1) (EV 6)));
    Set_ 1 (E2 BXor (E1 (URotl 25) (EV 1)) (EV 0));
    Set_ 3 (E2 BAdd (EV 3) (E2 BAdd (EV 4) (EC 17)));
    Set_ 2 (E2 BAdd (EV 2) (E2 BAdd (E2 BAdd (EV 3) (EV 8)) (EV 9)));
    Set_ 3 (E2 BXor (E1 (URotl 33) (EV 3)) (EV 2));
    Set_ 0 (E2 BAdd (EV 0) (EV 3));
    Set_ 3 (E2 BXor (E1 (URotl 46) (EV 3)) (EV 0));
    Set_ 2 (E2 BAdd (EV 2) (EV 1));
    Set_ 1 (E2 BXor (E1 (URotl 12) (EV 1)) (EV 2));
    Set_ 0 (E2 BAdd (EV 0) (EV 1));
    Set_ 1 (E2 BXor (E1 (URotl 58) (EV 1)) (EV 0));
    Set_ 2 (E2 BAdd (EV 2) (EV 3));
    Set_ 3 (E2 BXor (E1 (URotl 22) (EV 3)) (EV 2));
    Set_ 0 (E2 BAdd (EV 0) (EV 3));
    Set_ 3 (E2 BXor (E1 (URotl 32) (EV 3)) (EV 0));
    Set_ 2 (E2 BAdd (EV 2) (EV 1));
    Set_ 1 (E2 BXor (E1 (URotl 32) (EV 1)) (EV 2))]].
(** output[i] = ..., in increasing order of i, threefish256.go:425-429. *)
Definition enc256_out : list exp :=
  [(E2 BAdd (EV 0) (EV 7));
   (E2 BAdd (E2 BAdd (EV 1) (EV 8)) (EV 9));
   (E2 BAdd (E2 BAdd (EV 2) (EV 4)) (EV 10));
   (E2 BAdd (E2 BAdd (EV 3) (EV 5)) (EC 18))].
(** threefish256.go:451-922. *)
Definition dec256_groups : list prog :=
  [[Set_ 0 (E2 BSub (EV 0) (EV 7));
    Set_ 1 (E2 BSub (EV 1) (E2 BAdd (EV 8) (EV 9)));
    Set_ 2 (E2 BSub (EV 2) (E2 BAdd (EV 4) (EV 10)));
    Set_ 3 (E2 BSub (EV 3) (E2 BAdd (EV 5) (EC 18)))];
   [Set_ 12 (E2 BXor (EV 3) (EV 0));
    Set_ 3 (E1 (URotr 32) (EV 12));
    Set_ 0 (E2 BSub (EV 0) (EV 3));
    Set_ 12 (E2 BXor (EV 1) (EV 2));
    Set_ 1 (E1 (URotr 32) (EV 12));
    Set_ 2 (E2 BSub (EV 2) (EV 1));
    Set_ 12 (E2 BXor (EV 1) (EV 0));
    Set_ 1 (E1 (URotr 58) (EV 12));
    Set_ 0 (E2 BSub (EV 0) (EV 1));
    Set_ 12 (E2 BXor (EV 3) (EV 2));
    Set_ 3 (E1 (URotr 22) (EV 12));
    Set_ 2 (E2 BSub (EV 2) (EV 3));
    Set_ 12 (E2 BXor (EV 3) (EV 0));
    Set_ 3 (E1 (URotr 46) (EV 12));
    Set_ 0 (E2 BSub (EV 0) (EV 3));
    Set_ 12 (E2 BXor (EV 1) (EV 2));
    Set_ 1 (E1 (URotr 12) (EV 12));
    Set_ 2 (E2 BSub (EV 2) (EV 1));
    Set_ 12 (E2 BXor (EV 1) (EV 0));
    Set_ 1 (E1 (URotr 25) (EV 12));
    Set_ 0 (E2 BSub (EV 0) (E2 BAdd (EV 1) (EV 6)));
    Set_ 1 (E2 BSub (EV 1) (E2 BAdd (EV 7) (EV 11)));
    Set_ 12 (E2 BXor (EV 3) (EV 2));
    Set_ 3 (E1 (URotr 33) (EV 12));
    Set_ 2 (E2 BSub (EV 2) (E2 BAdd (E2 BAdd (EV 3) (EV 8)) (EV 9)));
    Set_ 3 (E2 BSub (EV 3) (E2 BAdd (EV 4) (EC 17)))];
   [Set_ 12 (E2 BXor (EV 3) (EV 0));
    Set_ 3 (E1 (URotr 5) (EV 12));
    Set_ 0 (E2 BSub (EV 0) (EV 3));
    Set_ 12 (E2 BXor (EV 1) (EV 2));
    Set_ 1 (E1 (URotr 37) (EV 12));
    Set_ 2 (E2 BSub (EV 2) (EV 1));
    Set_ 12 (E2 BXor (EV 1) (EV 0));
    Set_ 1 (E1 (URotr 23) (EV 12));
    Set_ 0 (E2 BSub (EV 0) (EV 1));
    Set_ 12 (E2 BXor (EV 3) (EV 2));
    Set_ 3 (E1 (URotr 40) (EV 12));
    Set_ 2 (E2 BSub (EV 2) (EV 3));
    Set_ 12 (E2 BXor (EV 3) (EV 0));
    Set_ 3 (E1 (URotr 52) (EV 12));
    Set_ 0 (E2 BSub (EV 0) (EV 3));
    Set_ 12 (E2 BXor (EV 1) (EV 2));
    Set_ 1 (E1 (URotr 57) (EV 12));
    Set_ 2 (E2 BSub (EV 2) (EV 1));
    Set_ 12 (E2 BXor (EV 1) (EV 0));
    Set_ 1 (E1 (URotr 14) (EV 12));
    Set_ 0 (E2 BSub (EV 0) (E2 BAdd (EV 1) (EV 5)));
    Set_ 1 (E2 BSub (EV 1) (E2 BAdd (EV 6) (EV 10)));
    Set_ 12 (E2 BXor (EV 3) (EV 2));
    Set_ 3 (E1 (URotr 16) (EV 12));
    Set_ 2 (E2 BSub (EV 2) (E2 BAdd (E2 BAdd (EV 3) (EV 7)) (EV 11)));
    Set_ 3 (E2 BSub (EV 3) (E2 BAdd (EV 8) (EC 16)))];
   [Set_ 12 (E2 BXor (EV 3) (EV 0));
    Set_ 3 (E1 (URotr 32) (EV 12));
    Set_ 0 (E2 BSub (EV 0) (EV 3));
    Set_ 12 (E2 BXor (EV 1) (EV 2));
    Set_ 1 (E1 (URotr 32) (EV 12));
    Set_ 2 (E2 BSub (EV 2) (EV 1));
    Set_ 12 (E2 BXor (EV 1) (EV 0));
    Set_ 1 (E1 (URotr 58) (EV 12));
    Set_ 0 (E2 BSub (EV 0) (EV 1));
    Set_ 12 (E2 BXor (EV 3) (EV 2));
    Set_ 3 (E1 (URotr 22) (EV 12));
    Set_ 2 (E2 BSub (EV 2) (EV 3));
    Set_ 12 (E2 BXor (EV 3) (EV 0));
    Set_ 3 (E1 (URotr 46) (EV 12));
    Set_ 0 (E2 BSub (EV 0) (EV 3));
    Set_ 12 (E2 BXor (EV 1) (EV 2));
    Set_ 1 (E1 (URotr 12) (EV 12));
    Set_ 2 (E2 BSub (EV 2) (EV 1));
    Set_ 12 (E2 BXor (EV 1) (EV 0));
    Set_ 1 (E1 (URotr 25) (EV 12));
    Set_ 0 (E2 BSub (EV 0) (E2 BAdd (EV 1) (EV 4)));
    Set_ 1 (E2 BSub (EV 1) (E2 BAdd (EV 5) (EV 9)));
    Set_ 12 (E2 BXor (EV 3) (EV 2));
    Set_ 3 (E1 (URotr 33) (EV 12));
    Set_ 2 (E2 BSub (EV 2) (E2 BAdd (E2 BAdd (EV 3) (EV 6)) (EV 10)));
    Set_ 3 (E2 BSub (EV 3) (E2 BAdd (EV 7) (EC 15)))];
   [Set_ 12 (E2 BXor (EV 3) (EV 0));
    Set_ 3 (E1 (URotr 5) (EV 12));
    Set_ 0 (E2 BSub (EV 0) (EV 3));
    Set_ 12 (E2 BXor (EV 1) (EV 2));
    Set_ 1 (E1 (URotr 37) (EV 12));
    Set_ 2 (E2 BSub (EV 2) (EV 1));
    Set_ 12 (E2 BXor (EV 1) (EV 0));
    Set_ 1 (E1 (URotr 23) (EV 12));
    Set_ 0 (E2 BSub (EV 0) (EV 1));
    Set_ 12 (E2 BXor (EV 3) (EV 2));
    Set_ 3 (E1 (URotr 40) (EV 12));
    Set_ 2 (E2 BSub (EV 2) (EV 3));
    Set_ 12 (E2 BXor (EV 3) (EV 0));
    Set_ 3 (E1 (URotr 52) (EV 12));
    Set_ 0 (E2 BSub (EV 0) (EV 3));
    Set_ 12 (E2 BXor (EV 1) (EV 2));
    Set_ 1 (E1 (URotr 57) (EV 12));
    Set_ 2 (E2 BSub (EV 2) (EV 1));
    Set_ 12 (E2 BXor (EV 1) (EV 0));
    Set_ 1 (E1 (URotr 14) (EV 12));
    Set_ 0 (E2 BSub (EV 0) (E2 BAdd (EV 1) (EV 8)));
    Set_ 1 (E2 BSub (EV 1) (E2 BAdd (EV 4) (EV 11)));
    Set_ 12 (E2 BXor (EV 3) (EV 2));
    Set_ 3 (E1 (URotr 16) (EV 12));
    Set_ 2 (E2 BSub (EV 2) (E2 BAdd (E2 BAdd (EV 3) (EV 5)) (EV 9)));
    Set_ 3 (E2 BSub (EV 3) (E2 BAdd (EV 6) (EC 14)))];
   [Set_ 12 (E2 BXor (EV 3) (EV 0));
    Set_ 3 (E1 (URotr 32) (EV 12));
    Set_ 0 (E2 BSub (EV 0) (EV 3));
    Set_ 12 (E2 BXor (EV 1) (EV 2));
    Set_ 1 (E1 (URotr 32) (EV 12));
    Set_ 2 (E2 BSub (EV 2) (EV 1));
    Set_ 12 (E2 BXor (EV 1) (EV 0));
    Set_ 1 (E1 (URotr 58) (EV 12));
    Set_ 0 (E2 BSub (EV 0) (EV 1));
    Set_ 12 (E2 BXor (EV 3) (EV 2));
    Set_ 3 (E1 (URotr 22) (EV 12));
    Set_ 2 (E2 BSub (EV 2) (EV 3));
    Set_ 12 (E2 BXor (EV 3) (EV 0));
    Set_ 3 (E1 (URotr 46) (EV 12));
    Set_ 0 (E2 BSub (EV 0) (EV 3));
    Set_ 12 (E2 BXor (EV 1) (EV 2));
    Set_ 1 (E1 (URotr 12) (EV 12));
    Set_ 2 (E2 BSub (EV 2) (EV 1));
    Set_ 12 (E2 BXor (EV 1) (EV 0));
    Set_ 1 (E1 (URotr 25) (EV 12));
    Set_ 0 (E2 BSub (EV 0) (E2 BAdd (EV 1) (EV 7)));
    Set_ 1 (E2 BSub (EV 1) (E2 BAdd (EV 8) (EV 10)));
    Set_ 12 (E2 BXor (EV 3) (EV 2));
    Set_ 3 (E1 (URotr 33) (EV 12));
    Set_ 2 (E2 BSub (EV 2) (E2 BAdd (E2 BAdd (EV 3) (EV 4)) (EV 11)));
    Set_ 3 (E2 BSub (EV 3) (E2 BAdd (EV 5) (EC 13)))];
   [Set_ 12 (E2 BXor (EV 3) (EV 0));
    Set_ 3 (E1 (URotr 5) (EV 12));
    Set_ 0 (E2 BSub (EV 0) (EV 3));
    Set_ 12 (E2 BXor (EV 1) (EV 2));
    Set_ 1 (E1 (URotr 37) (EV 12));
    Set_ 2 (E2 BSub (EV 2) (EV 1));
    Set_ 12 (E2 BXor (EV 1) (EV 0));
    Set_ 1 (E1 (URotr 23) (EV 12));
    Set_ 0 (E2 BSub (EV 0) (EV 1));
    Set_ 12 (E2 BXor (EV 3) (EV 2));
    Set_ 3 (E1 (URotr 40) (EV 12));
    Set_ 2 (E2 BSub (EV 2) (EV 3));
    Set_ 12 (E2 BXor (EV 3) (EV 0));
    Set_ 3 (E1 (URotr 52) (EV 12));
    Set_ 0 (E2 BSub (EV 0) (EV 3));
    Set_ 12 (E2 BXor (EV 1) (EV 2));
    Set_ 1 (E1 (URotr 57) (EV 12));
    Set_ 2 (E2 BSub (EV 2) (EV 1));
    Set_ 12 (E2 BXor (EV 1) (EV 0));
    Set_ 1 (E1 (URotr 14) (EV 12));
    Set_ 0 (E2 BSub (EV 0) (E2 BAdd (EV 1) (EV 6)));
    Set_ 1 (E2 BSub (EV 1) (E2 BAdd (EV 7) (EV 9)));
    Set_ 12 (E2 BXor (EV 3) (EV 2));
    Set_ 3 (E1 (URotr 16) (EV 12));
    Set_ 2 (E2 BSub (EV 2) (E2 BAdd (E2 BAdd (EV 3) (EV 8)) (EV 10)));
    Set_ 3 (E2 BSub (EV 3) (E2 BAdd (EV 4) (EC 12)))];
   [Set_ 12 (E2 BXor (EV 3) (EV 0));
    Set_ 3 (E1 (URotr 32) (EV 12));
    Set_ 0 (E2 BSub (EV 0) (EV 3));
    Set_ 12 (E2 BXor (EV 1) (EV 2));
    Set_ 1 (E1 (URotr 32) (EV 12));
    Set_ 2 (E2 BSub (EV 2) (EV 1));
    Set_ 12 (E2 BXor (EV 1) (EV 0));
    Set_ 1 (E1 (URotr 58) (EV 12));
    Set_ 0 (E2 BSub (EV 0) (EV 1));
    Set_ 12 (E2 BXor (EV 3) (EV 2));
    Set_ 3 (E1 (URotr 22) (EV 12));
    Set_ 2 (E2 BSub (EV 2) (EV 3));
    Set_ 12 (E2 BXor (EV 3) (EV 0));
    Set_ 3 (E1 (URotr 46) (EV 12));
    Set_ 0 (E2 BSub (EV 0) (EV 3));
    Set_ 12 (E2 BXor (EV 1) (EV 2));
    Set_ 1 (E1 (URotr 12) (EV 12));
    Set_ 2 (E2 BSub (EV 2) (EV 1));
    Set_ 12 (E2 BXor (EV 1) (EV 0));
    Set_ 1 (E1 (URotr 25) (EV 12));
    Set_ 0 (E2 BSub (EV 0) (E2 BAdd (EV 1) (EV 5)));
    Set_ 1 (E2 BSub (EV 1) (E2 BAdd (EV 6) (EV 11)));
    Set_ 12 (E2 BXor (EV 3) (EV 2));
    Set_ 3 (E1 (URotr 33) (EV 12));
    Set_ 2 (E2 BSub (EV 2) (E2 BAdd (E2 BAdd (EV 3) (EV 7)) (EV 9)));
    Set_ 3 (E2 BSub (EV 3) (E2 BAdd (EV 8) (EC 11)))];
   [Set_ 12 (E2 BXor (EV 3) (EV 0));
    Set_ 3 (E1 (URotr 5) (EV 12));
    Set_ 0 (E2 BSub (EV 0) (EV 3));
    Set_ 12 (E2 BXor (EV 1) (EV 2));
    Set_ 1 (E1 (URotr 37) (EV 12));
    Set_ 2 (E2 BSub (EV 2) (EV 1));
    Set_ 12 (E2 BXor (EV 1) (EV 0));
    Set_ 1 (E1 (URotr 23) (EV 12));
    Set_ 0 (E2 BSub (EV 0) (EV 1));
    Set_ 12 (E2 BXor (EV 3) (EV 2));
    Set_ 3 (E1 (URotr 40) (EV 12));
    Set_ 2 (E2 BSub (EV 2) (EV 3));
    Set_ 12 (E2 BXor (EV 3) (EV 0));
    Set_ 3 (E1 (URotr 52) (EV 12));
    Set_ 0 (E2 BSub (EV 0) (EV 3));
    Set_ 12 (E2 BXor (EV 1) (EV 2));
    Set_ 1 (E1 (URotr 57) (EV 12));
    Set_ 2 (E2 BSub (EV 2) (EV 1));
    Set_ 12 (E2 BXor (EV 1) (EV 0));
    Set_ 1 (E1 (URotr 14) (EV 12));
    Set_ 0 (E2 BSub (EV 0) (E2 BAdd (EV 1) (EV 4)));
    Set_ 1 (E2 BSub (EV 1) (E2 BAdd (EV 5) (EV 10)));
    Set_ 12 (E2 BXor (EV 3) (EV 2));
    Set_ 3 (E1 (URotr 16) (EV 12));
    Set_ 2 (E2 BSub (EV 2) (E2 BAdd (E2 BAdd (EV 3) (EV 6)) (EV 11)));
    Set_ 3 (E2 BSub (EV 3) (E2 BAdd (EV 7) (EC 10)))];
   [Set_ 12 (E2 BXor (EV 3) (EV 0));
    Set_ 3 (E1 (URotr 32) (EV 12));
    Set_ 0 (E2 BSub (EV 0) (EV 3));
    Set_ 12 (E2 BXor (EV 1) (EV 2));
    Set_ 1 (E1 (URotr 32) (EV 12));
    Set_ 2 (E2 BSub (EV 2) (EV 1));
    Set_ 12 (E2 BXor (EV 1) (EV 0));
    Set_ 1 (E1 (URotr 58) (EV 12));
    Set_ 0 (E2 BSub (EV 0) (EV 1));
    Set_ 12 (E2 BXor (EV 3) (EV 2));
    Set_ 3 (E1 (URotr 22) (EV 12));
    Set_ 2 (E2 BSub (EV 2) (EV 3));
    Set_ 12 (E2 BXor (EV 3) (EV 0));
    Set_ 3 (E1 (URotr 46) (EV 12));
    Set_ 0 (E2 BSub (EV 0) (EV 3));
    Set_ 12 (E2 BXor (EV 1) (EV 2));
    Set_ 1 (E1 (URotr 12) (EV 12));
    Set_ 2 (E2 BSub (EV 2) (EV 1));
    Set_ 12 (E2 BXor (EV 1) (EV 0));
    Set_ 1 (E1 (URotr 25) (EV 12));
    Set_ 0 (E2 BSub (EV 0) (E2 BAdd (EV 1) (EV 8)));
    Set_ 1 (E2 BSub (EV 1) (E2 BAdd (EV 4) (EV 9)));
    Set_ 12 (E2 BXor (EV 3) (EV 2));
    Set_ 3 (E1 (URotr 33) (EV 12));
    Set_ 2 (E2 BSub (EV 2) (E2 BAdd (E2 BAdd (EV 3) (EV 5)) (EV 10)));
    Set_ 3 (E2 BSub (EV 3) (E2 BAdd (EV 6) (EC 9)))];
   [Set_ 12 (E2 BXor (EV 3) (EV 0));
    Set_ 3 (E1 (URotr 5) (EV 12));
    Set_ 0 (E2 BSub (EV 0) (EV 3));
    Set_ 12 (E2 BXor (EV 1) (EV 2));
    Set_ 1 (E1 (URotr 37) (EV 12));
    Set_ 2 (E2 BSub (EV 2) (EV 1));
    Set_ 12 (E2 BXor (EV 1) (EV 0));
    Set_ 1 (E1 (URotr 23) (EV 12));
    Set_ 0 (E2 BSub (EV 0) (EV 1));
    Set_ 12 (E2 BXor (EV 3) (EV 2));
    Set_ 3 (E1 (URotr 40) (EV 12));
    Set_ 2 (E2 BSub (EV 2) (EV 3));
    Set_ 12 (E2 BXor (EV 3) (EV 0));
    Set_ 3 (E1 (URotr 52) (EV 12));
    Set_ 0 (E2 BSub (EV 0) (EV 3));
    Set_ 12 (E2 BXor (EV 1) (EV 2));
    Set_ 1 (E1 (URotr 57) (EV 12));
    Set_ 2 (E2 BSub (EV 2) (EV 1));
    Set_ 12 (E2 BXor (EV 1) (EV 0));
    Set_ 1 (E1 (URotr 14) (EV 12));
    Set_ 0 (E2 BSub (EV 0) (E2 BAdd (EV 1) (EV 7)));
    Set_ 1 (E2 BSub (EV 1) (E2 BAdd (EV 8) (EV 11)));
    Set_ 12 (E2 BXor (EV 3) (EV 2));
    Set_ 3 (E1 (URotr 16) (EV 12));
    Set_ 2 (E2 BSub (EV 2) (E2 BAdd (E2 BAdd (EV 3) (EV 4)) (EV 9)));
    Set_ 3 (E2 BSub (EV 3) (E2 BAdd (EV 5) (EC 8)))];
   [Set_ 12 (E2 BXor (EV 3) (EV 0));
    Set_ 3 (E1 (URotr 32) (EV 12));
    Set_ 0 (E2 BSub (EV 0) (EV 3));
    Set_ 12 (E2 BXor (EV 1) (EV 2));
    Set_ 1 (E1 (URotr 32) (EV 12));
    Set_ 2 (E2 BSub (EV 2) (EV 1));
    Set_ 12 (E2 BXor (EV 1) (EV 0));
    Set_ 1 (E1 (URotr 58) (EV 12));
    Set_ 0 (E2 BSub (EV 0) (EV 1));
    Set_ 12 (E2 BXor (EV 3) (EV 2));
    Set_ 3 (E1 (URotr 22) (EV 12));
    Set_ 2 (E2 BSub (EV 2) (EV 3));
    Set_ 12 (E2 BXor (EV 3) (EV 0));
    Set_ 3 (E1 (URotr 46) (EV 12));
    Set_ 0 (E2 BSub (EV 0) (EV 3));
    Set_ 12 (E2 BXor (EV 1) (EV 2));
    Set_ 1 (E1 (URotr 12) (EV 12));
    Set_ 2 (E2 BSub (EV 2) (EV 1));
    Set_ 12 (E2 BXor (EV 1) (EV 0));
    Set_ 1 (E1 (URotr 25) (EV 12));
    Set_ 0 (E2 BSub (EV 0) (E2 BAdd (EV 1) (EV 6)));
    Set_ 1 (E2 BSub (EV 1) (E2 BAdd (EV 7) (EV 10)));
    Set_ 12 (E2 BXor (EV 3) (EV 2));
    Set_ 3 (E1 (URotr 33) (EV 12));
    Set_ 2 (E2 BSub (EV 2) (E2 BAdd (E2 BAdd (EV 3) (EV 8)) (EV 11)));
    Set_ 3 (E2 BSub (EV 3) (E2 BAdd (EV 4) (EC 7)))];
   [Set_ 12 (E2 BXor (EV 3) (EV 0));
    Set_ 3 (E1 (URotr 5) (EV 12));
    Set_ 0 (E2 BSub (EV 0) (EV 3));
    Set_ 12 (E2 BXor (EV 1) (EV 2));
    Set_ 1 (E1 (URotr 37) (EV 12));
    Set_ 2 (E2 BSub (EV 2) (EV 1));
    Set_ 12 (E2 BXor (EV 1) (EV 0));
    Set_ 1 (E1 (URotr 23) (EV 12));
    Set_ 0 (E2 BSub (EV 0) (EV 1));
    Set_ 12 (E2 BXor (EV 3) (EV 2));
    Set_ 3 (E1 (URotr 40) (EV 12));
    Set_ 2 (E2 BSub (EV 2) (EV 3));
    Set_ 12 (E2 BXor (EV 3) (EV 0));
    Set_ 3 (E1 (URotr 52) (EV 12));
    Set_ 0 (E2 BSub (EV 0) (EV 3));
    Set_ 12 (E2 BXor (EV 1) (EV 2));
    Set_ 1 (E1 (URotr 57) (EV 12));
    Set_ 2 (E2 BSub (EV 2) (EV 1));
    Set_ 12 (E2 BXor (EV 1) (EV 0));
    Set_ 1 (E1 (URotr 14) (EV 12));
    Set_ 0 (E2 BSub (EV 0) (E2 BAdd (EV 1) (EV 5)));
    Set_ 1 (E2 BSub (EV 1) (E2 BAdd (EV 6) (EV 9)));
    Set_ 12 (E2 BXor (EV 3) (EV 2));
    Set_ 3 (E1 (URotr 16) (EV 12));
    Set_ 2 (E2 BSub (EV 2) (E2 BAdd (E2 BAdd (EV 3) (EV 7)) (EV 10)));
    Set_ 3 (E2 BSub (EV 3) (E2 BAdd (EV 8) (EC 6)))];
   [Set_ 12 (E2 BXor (EV 3) (EV 0));
    Set_ 3 (E1 (URotr 32) (EV 12));
    Set_ 0 (E2 BSub (EV 0) (EV 3));
    Set_ 12 (E2 BXor (EV 1) (EV 2));
    Set_ 1 (E1 (URotr 32) (EV 12));
    Set_ 2 (E2 BSub (EV 2) (EV 1));
    Set_ 12 (E2 BXor (EV 1) (EV 0));
    Set_ 1 (E1 (URotr 58) (EV 12));
    Set_ 0 (E2 BSub (EV 0) (EV 1));
    Set_ 12 (E2 BXor (EV 3) (EV 2));
    Set_ 3 (E1 (URotr 22) (EV 12));
    Set_ 2 (E2 BSub (EV 2) (EV 3));
    Set_ 12 (E2 BXor (EV 3) (EV 0));
    Set_ 3 (E1 (URotr 46) (EV 12));
    Set_ 0 (E2 BSub (EV 0) (EV 3));
    Set_ 12 (E2 BXor (EV 1) (EV 2));
    Set_ 1 (E1 (URotr 12) (EV 12));
    Set_ 2 (E2 BSub (EV 2) (EV 1));
    Set_ 12 (E2 BXor (EV 1) (EV 0));
    Set_ 1 (E1 (URotr 25) (EV 12));
    Set_ 0 (E2 BSub (EV 0) (E2 BAdd (EV 1) (EV 4)));
    Set_ 1 (E2 BSub (EV 1) (E2 BAdd (EV 5) (EV 11)));
    Set_ 12 (E2 BXor (EV 3) (EV 2));
    Set_ 3 (E1 (URotr 33) (EV 12));
    Set_ 2 (E2 BSub (EV 2) (E2 BAdd (E2 BAdd (EV 3) (EV 6)) (EV 9)));
    Set_ 3 (E2 BSub (EV 3) (E2 BAdd (EV 7) (EC 5)))];
   [Set_ 12 (E2 BXor (EV 3) (EV 0));
    Set_ 3 (E1 (URotr 5) (EV 12));
    Set_ 0 (E2 BSub (EV 0) (EV 3));
    Set_ 12 (E2 BXor (EV 1) (EV 2));
    Set_ 1 (E1 (URotr 37) (EV 12));
    Set_ 2 (E2 BSub (EV 2) (EV 1));
    Set_ 12 (E2 BXor (EV 1) (EV 0));
    Set_ 1 (E1 (URotr 23) (EV 12));
    Set_ 0 (E2 BSub (EV 0) (EV 1));
    Set_ 12 (E2 BXor (EV 3) (EV 2));
    Set_ 3 (E1 (URotr 40) (EV 12));
    Set_ 2 (E2 BSub (EV 2) (EV 3));
    Set_ 12 (E2 BXor (EV 3) (EV 0));
    Set_ 3 (E1 (URotr 52) (EV 12));
    Set_ 0 (E2 BSub (EV 0) (EV 3));
    Set_ 12 (E2 BXor (EV 1) (EV 2));
    Set_ 1 (E1 (URotr 57) (EV 12));
    Set_ 2 (E2 BSub (EV 2) (EV 1));
    Set_ 12 (E2 BXor (EV 1) (EV 0));
    Set_ 1 (E1 (URotr 14) (EV 12));
    Set_ 0 (E2 BSub (EV 0) (E2 BAdd (EV 1) (EV 8)));
    Set_ 1 (E2 BSub (EV 1) (E2 BAdd (EV 4) (EV 10)));
    Set_ 12 (E2 BXor (EV 3) (EV 2));
    Set_ 3 (E1 (URotr 16) (EV 12));
    Set_ 2 (E2 BSub (EV 2) (E2 BAdd (E2 BAdd (EV 3) (EV 5)) (EV 11)));
    Set_ 3 (E2 BSub (EV 3) (E2 BAdd (EV 6) (EC 4)))];
   [Set_ 12 (E2 BXor (EV 3) (EV 0));
    Set_ 3 (E1 (URotr 32) (EV 12));
    Set_ 0 (E2 BSub (EV 0) (EV 3));
    Set_ 12 (E2 BXor (EV 1) (EV 2));
    Set_ 1 (E1 (URotr 32) (EV 12));
    Set_ 2 (E2 BSub (EV 2) (EV 1));
    Set_ 12 (E2 BXor (EV 1) (EV 0));
    Set_ 1 (E1 (URotr 58) (EV 12));
    Set_ 0 (E2 BSub (EV 0) (EV 1));
    Set_ 12 (E2 BXor (EV 3) (EV 2));
    Set_ 3 (E1 (URotr 22) (EV 12));
    Set_ 2 (E2 BSub (EV 2) (EV 3));
    Set_ 12 (E2 BXor (EV 3) (EV 0));
    Set_ 3 (E1 (URotr 46) (EV 12));
    Set_ 0 (E2 BSub (EV 0) (EV 3));
    Set_ 12 (E2 BXor (EV 1) (EV 2));
    Set_ 1 (E1 (URotr 12) (EV 12));
    Set_ 2 (E2 BSub (EV 2) (EV 1));
    Set_ 12 (E2 BXor (EV 1) (EV 0));
    Set_ 1 (E1 (URotr 25) (EV 12));
    Set_ 0 (E2 BSub (EV 0) (E2 BAdd (EV 1) (EV 7)));
    Set_ 1 (E2 BSub (EV 1) (E2 BAdd (EV 8) (EV 9)));
    Set_ 12 (E2 BXor (EV 3) (EV 2));
    Set_ 3 (E1 (URotr 33) (EV 12));
    Set_ 2 (E2 BSub (EV 2) (E2 BAdd (E2 BAdd (EV 3) (EV 4)) (EV 10)));
    Set_ 3 (E2 BSub (EV 3) (E2 BAdd (EV 5) (EC 3)))];
   [Set_ 12 (E2 BXor (EV 3) (EV 0));
    Set_ 3 (E1 (URotr 5) (EV 12));
    Set_ 0 (E2 BSub (EV 0) (EV 3));
    Set_ 12 (E2 BXor (EV 1) (EV 2));
    Set_ 1 (E1 (URotr 37) (EV 12));
    Set_ 2 (E2 BSub (EV 2) (EV 1));
    Set_ 12 (E2 BXor (EV 1) (EV 0));
    Set_ 1 (E1 (URotr 23) (EV 12));
    Set_ 0 (E2 BSub (EV 0) (EV 1));
    Set_ 12 (E2 BXor (EV 3) (EV 2));
    Set_ 3 (E1 (URotr 40) (EV 12));
    Set_ 2 (E2 BSub (EV 2) (EV 3));
    Set_ 12 (E2 BXor (EV 3) (EV 0));
    Set_ 3 (E1 (URotr 52) (EV 12));
    Set_ 0 (E2 BSub (EV 0) (EV 3));
    Set_ 12 (E2 BXor (EV 1) (EV 2));
    Set_ 1 (E1 (URotr 57) (EV 12));
    Set_ 2 (E2 BSub (EV 2) (EV 1));
    Set_ 12 (E2 BXor (EV 1) (EV 0));
    Set_ 1 (E1 (URotr 14) (EV 12));
    Set_ 0 (E2 BSub (EV 0) (E2 BAdd (EV 1) (EV 6)));
    Set_ 1 (E2 BSub (EV 1) (E2 BAdd (EV 7) (EV 11)));
    Set_ 12 (E2 BXor (EV 3) (EV 2));
    Set_ 3 (E1 (URotr 16) (EV 12));
    Set_ 2 (E2 BSub (EV 2) (E2 BAdd (E2 BAdd (EV 3) (EV 8)) (EV 9)));
    Set_ 3 (E2 BSub (EV 3) (E2 BAdd (EV 4) (EC 2)))];
   [Set_ 12 (E2 BXor (EV 3) (EV 0));
    Set_ 3 (E1 (URotr 32) (EV 12));
    Set_ 0 (E2 BSub (EV 0) (EV 3));
    Set_ 12 (E2 BXor (EV 1) (EV 2));
    Set_ 1 (E1 (URotr 32) (EV 12));
    Set_ 2 (E2 BSub (EV 2) (EV 1));
    Set_ 12 (E2 BXor (EV 1) (EV 0));
    Set_ 1 (E1 (URotr 58) (EV 12));
    Set_ 0 (E2 BSub (EV 0) (EV 1));
    Set_ 12 (E2 BXor (EV 3) (EV 2));
    Set_ 3 (E1 (URotr 22) (EV 12));
    Set_ 2 (E2 BSub (EV 2) (EV 3));
    Set_ 12 (E2 BXor (EV 3) (EV 0));
    Set_ 3 (E1 (URotr 46) (EV 12));
    Set_ 0 (E2 BSub (EV 0) (EV 3));
    Set_ 12 (E2 BXor (EV 1) (EV 2));
    Set_ 1 (E1 (URotr 12) (EV 12));
    Set_ 2 (E2 BSub (EV 2) (EV 1));
    Set_ 12 (E2 BXor (EV 1) (EV 0));
    Set_ 1 (E1 (URotr 25) (EV 12));
    Set_ 0 (E2 BSub (EV 0) (E2 BAdd (EV 1) (EV 5)));
    Set_ 1 (E2 BSub (EV 1) (E2 BAdd (EV 6) (EV 10)));
    Set_ 12 (E2 BXor (EV 3) (EV 2));
    Set_ 3 (E1 (URotr 33) (EV 12));
    Set_ 2 (E2 BSub (EV 2) (E2 BAdd (E2 BAdd (EV 3) (EV 7)) (EV 11)));
    Set_ 3 (E2 BSub (EV 3) (E2 BAdd (EV 8) (EC 1)))];
   [Set_ 12 (E2 BXor (EV 3) (EV 0));
    Set_ 3 (E1 (URotr 5) (EV 12));
    Set_ 0 (E2 BSub (EV 0) (EV 3));
    Set_ 12 (E2 BXor (EV 1) (EV 2));
    Set_ 1 (E1 (URotr 37) (EV 12));
    Set_ 2 (E2 BSub (EV 2) (EV 1));
    Set_ 12 (E2 BXor (EV 1) (EV 0));
    Set_ 1 (E1 (URotr 23) (EV 12));
    Set_ 0 (E2 BSub (EV 0) (EV 1));
    Set_ 12 (E2 BXor (EV 3) (EV 2));
    Set_ 3 (E1 (URotr 40) (EV 12));
    Set_ 2 (E2 BSub (EV 2) (EV 3));
    Set_ 12 (E2 BXor (EV 3) (EV 0));
    Set_ 3 (E1 (URotr 52) (EV 12));
    Set_ 0 (E2 BSub (EV 0) (EV 3));
    Set_ 12 (E2 BXor (EV 1) (EV 2));
    Set_ 1 (E1 (URotr 57) (EV 12));
    Set_ 2 (E2 BSub (EV 2) (EV 1));
    Set_ 12 (E2 BXor (EV 1) (EV 0));
    Set_ 1 (E1 (URotr 14) (EV 12));
    Set_ 0 (E2 BSub (EV 0) (E2 BAdd (EV 1) (EV 4)));
    Set_ 1 (E2 BSub (EV 1) (E2 BAdd (EV 5) (EV 9)));
    Set_ 12 (E2 BXor (EV 3) (EV 2));
    Set_ 3 (E1 (URotr 16) (EV 12));
    Set_ 2 (E2 BSub (EV 2) (E2 BAdd (E2 BAdd (EV 3) (EV 6)) (EV 10)));
    Set_ 3 (E2 BSub (EV 3) (EV 7))]].
(** output[i] = ..., in increasing order of i, threefish256.go:924-927. *)
Definition dec256_out : list exp :=
  [(EV 0);
   (EV 1);
   (EV 2);
   (EV 3)].
(** threefish512.go:108-755. *)
Definition enc512_groups : list prog :=
  [[Set_ 1 (E2 BAdd (EV 1) (EV 9));
    Set_ 0 (E2 BAdd (EV 0) (E2 BAdd (EV 1) (EV 8)));
    Set_ 1 (E2 BXor (E1 (URotl 46) (EV 1)) (EV 0));
    Set_ 3 (E2 BAdd (EV 3) (EV 11));
    Set_ 2 (E2 BAdd (EV 2) (E2 BAdd (EV 3) (EV 10)));
    Set_ 3 (E2 BXor (E1 (URotl 36) (EV 3)) (EV 2));
    Set_ 5 (E2 BAdd (EV 5) (E2 BAdd (EV 13) (EV 17)));
    Set_ 4 (E2 BAdd (EV 4) (E2 BAdd (EV 5) (EV 12)));
    Set_ 5 (E2 BXor (E1 (URotl 19) (EV 5)) (EV 4));
    Set_ 7 (E2 BAdd (EV 7) (EV 15));
    Set_ 6 (E2 BAdd (EV 6) (E2 BAdd (E2 BAdd (EV 7) (EV 14)) (EV 18)));
    Set_ 7 (E2 BXor (E1 (URotl 37) (EV 7)) (EV 6));
    Set_ 2 (E2 BAdd (EV 2) (EV 1));
    Set_ 1 (E2 BXor (E1 (URotl 33) (EV 1)) (EV 2));
    Set_ 4 (E2 BAdd (EV 4) (EV 7));
    Set_ 7 (E2 BXor (E1 (URotl 27) (EV 7)) (EV 4));
    Set_ 6 (E2 BAdd (EV 6) (EV 5));
    Set_ 5 (E2 BXor (E1 (URotl 14) (EV 5)) (EV 6));
    Set_ 0 (E2 BAdd (EV 0) (EV 3));
    Set_ 3 (E2 BXor (E1 (URotl 42) (EV 3)) (EV 0));
    Set_ 4 (E2 BAdd (EV 4) (EV 1));
    Set_ 1 (E2 BXor (E1 (URotl 17) (EV 1)) (EV 4));
    Set_ 6 (E2 BAdd (EV 6) (EV 3));
    Set_ 3 (E2 BXor (E1 (URotl 49) (EV 3)) (EV 6));
    Set_ 0 (E2 BAdd (EV 0) (EV 5));
    Set_ 5 (E2 BXor (E1 (URotl 36) (EV 5)) (EV 0));
    Set_ 2 (E2 BAdd (EV 2) (EV 7));
    Set_ 7 (E2 BXor (E1 (URotl 39) (EV 7)) (EV 2));
    Set_ 6 (E2 BAdd (EV 6) (EV 1));
    Set_ 1 (E2 BXor (E1 (URotl 44) (EV 1)) (EV 6));
    Set_ 0 (E2 BAdd (EV 0) (EV 7));
    Set_ 7 (E2 BXor (E1 (URotl 9) (EV 7)) (EV 0));
    Set_ 2 (E2 BAdd (EV 2) (EV 5));
    Set_ 5 (E2 BXor (E1 (URotl 54) (EV 5)) (EV 2));
    Set_ 4 (E2 BAdd (EV 4) (EV 3));
    Set_ 3 (E2 BXor (E1 (URotl 56) (EV 3)) (EV 4))];
   [Set_ 1 (E2 BAdd (EV 1) (EV 10));
    Set_ 0 (E2 BAdd (EV 0) (E2 BAdd (EV 1) (EV 9)));
    Set_ 1 (E2 BXor (E1 (URotl 39) (EV 1)) (EV 0));
    Set_ 3 (E2 BAdd (EV 3) (EV 12));
    Set_ 2 (E2 BAdd (EV 2) (E2 BAdd (EV 3) (EV 11)));
    Set_ 3 (E2 BXor (E1 (URotl 30) (EV 3)) (EV 2));
    Set_ 5 (E2 BAdd (EV 5) (E2 BAdd (EV 14) (EV 18)));
    Set_ 4 (E2 BAdd (EV 4) (E2 BAdd (EV 5) (EV 13)));
    Set_ 5 (E2 BXor (E1 (URotl 34) (EV 5)) (EV 4));
    Set_ 7 (E2 BAdd (EV 7) (E2 BAdd (EV 16) (EC 1)));
    Set_ 6 (E2 BAdd (EV 6) (E2 BAdd (E2 BAdd (EV 7) (EV 15)) (EV 19)));
    Set_ 7 (E2 BXor (E1 (URotl 24) (EV 7)) (EV 6));
    Set_ 2 (E2 BAdd (EV 2) (EV 1));
    Set_ 1 (E2 BXor (E1 (URotl 13) (EV 1)) (EV 2));
    Set_ 4 (E2 BAdd (EV 4) (EV 7));
    Set_ 7 (E2 BXor (E1 (URotl 50) (EV 7)) (EV 4));
    Set_ 6 (E2 BAdd (EV 6) (EV 5));
    Set_ 5 (E2 BXor (E1 (URotl 10) (EV 5)) (EV 6));
    Set_ 0 (E2 BAdd (EV 0) (EV 3));
    Set_ 3 (E2 BXor (E1 (URotl 17) (EV 3)) (EV 0));
    Set_ 4 (E2 BAdd (EV 4) (EV 1));
    Set_ 1 (E2 BXor (E1 (URotl 25) (EV 1)) (EV 4));
    Set_ 6 (E2 BAdd (EV 6) (EV 3));
    Set_ 3 (E2 BXor (E1 (URotl 29) (EV 3)) (EV 6));
    Set_ 0 (E2 BAdd (EV 0) (EV 5));
    Set_ 5 (E2 BXor (E1 (URotl 39) (EV 5)) (EV 0));
    Set_ 2 (E2 BAdd (EV 2) (EV 7));
    Set_ 7 (E2 BXor (E1 (URotl 43) (EV 7)) (EV 2));
    Set_ 6 (E2 BAdd (EV 6) (EV 1));
    Set_ 1 (E2 BXor (E1 (URotl 8) (EV 1)) (EV 6));
    Set_ 0 (E2 BAdd (EV 0) (EV 7));
    Set_ 7 (E2 BXor (E1 (URotl 35) (EV 7)) (EV 0));
    Set_ 2 (E2 BAdd (EV 2) (EV 5));
    Set_ 5 (E2 BXor (E1 (URotl 56) (EV 5)) (EV 2));
    Set_ 4 (E2 BAdd (EV 4) (EV 3));
    Set_ 3 (E2 BXor (E1 (URotl 22) (EV 3)) (EV 4))];
   [Set_ 1 (E2 BAdd (EV 1) (EV 11));
    Set_ 0 (E2 BAdd (EV 0) (E2 BAdd (EV 1) (EV 10)));
    Set_ 1 (E2 BXor (E1 (URotl 46) (EV 1)) (EV 0));
    Set_ 3 (E2 BAdd (EV 3) (EV 13));
    Set_ 2 (E2 BAdd (EV 2) (E2 BAdd (EV 3) (EV 12)));
    Set_ 3 (E2 BXor (E1 (URotl 36) (EV 3)) (EV 2));
    Set_ 5 (E2 BAdd (EV 5) (E2 BAdd (EV 15) (EV 19)));
    Set_ 4 (E2 BAdd (EV 4) (E2 BAdd (EV 5) (EV 14)));
    Set_ 5 (E2 BXor (E1 (URotl 19) (EV 5)) (EV 4));
    Set_ 7 (E2 BAdd (EV 7) (E2 BAdd (EV 8) (EC 2)));
    Set_ 6 (E2 BAdd (EV 6) (E2 BAdd (E2 BAdd (EV 7) (EV 16)) (EV 17)));
    Set_ 7 (E2 BXor (E1 (URotl 37) (EV 7)) (EV 6));
    Set_ 2 (E2 BAdd (EV 2) (EV 1));
    Set_ 1 (E2 BXor (E1 (URotl 33) (EV 1)) (EV 2));
    Set_ 4 (E2 BAdd (EV 4) (EV 7));
    Set_ 7 (E2 BXor (E1 (URotl 27) (EV 7)) (EV 4));
    Set_ 6 (E2 BAdd (EV 6) (EV 5));
    Set_ 5 (E2 BXor (E1 (URotl 14) (EV 5)) (EV 6));
    Set_ 0 (E2 BAdd (EV 0) (EV 3));
    Set_ 3 (E2 BXor (E1 (URotl 42) (EV 3)) (EV 0));
    Set_ 4 (E2 BAdd (EV 4) (EV 1));
    Set_ 1 (E2 BXor (E1 (URotl 17) (EV 1)) (EV 4));
    Set_ 6 (E2 BAdd (EV 6) (EV 3));
    Set_ 3 (E2 BXor (E1 (URotl 49) (EV 3)) (EV 6));
    Set_ 0 (E2 BAdd (EV 0) (EV 5));
    Set_ 5 (E2 BXor (E1 (URotl 36) (EV 5)) (EV 0));
    Set_ 2 (E2 BAdd (EV 2) (EV 7));
    Set_ 7 (E2 BXor (E1 (URotl 39) (EV 7)) (EV 2));
    Set_ 6 (E2 BAdd (EV 6) (EV 1));
    Set_ 1 (E2 BXor (E1 (URotl 44) (EV 1)) (EV 6));
    Set_ 0 (E2 BAdd (EV 0) (EV 7));
    Set_ 7 (E2 BXor (E1 (URotl 9) (EV 7)) (EV 0));
    Set_ 2 (E2 BAdd (EV 2) (EV 5));
    Set_ 5 (E2 BXor (E1 (URotl 54) (EV 5)) (EV 2));
    Set_ 4 (E2 BAdd (EV 4) (EV 3));
    Set_ 3 (E2 BXor (E1 (URotl 56) (EV 3)) (EV 4))];
   [Set_ 1 (E2 BAdd (EV 1) (EV 12));
    Set_ 0 (E2 BAdd (EV 0) (E2 BAdd (EV 1) (EV 11)));
    Set_ 1 (E2 BXor (E1 (URotl 39) (EV 1)) (EV 0));
    Set_ 3 (E2 BAdd (EV 3) (EV 14));
    Set_ 2 (E2 BAdd (EV 2) (E2 BAdd (EV 3) (EV 13)));
    Set_ 3 (E2 BXor (E1 (URotl 30) (EV 3)) (EV 2));
    Set_ 5 (E2 BAdd (EV 5) (E2 BAdd (EV 16) (EV 17)));
    Set_ 4 (E2 BAdd (EV 4) (E2 BAdd (EV 5) (EV 15)));
    Set_ 5 (E2 BXor (E1 (URotl 34) (EV 5)) (EV 4));
    Set_ 7 (E2 BAdd (EV 7) (E2 BAdd (EV 9) (EC 3)));
    Set_ 6 (E2 BAdd (EV 6) (E2 BAdd (E2 BAdd (EV 7) (EV 8)) (EV 18)));
    Set_ 7 (E2 BXor (E1 (URotl 24) (EV 7)) (EV 6));
    Set_ 2 (E2 BAdd (EV 2) (EV 1));
    Set_ 1 (E2 BXor (E1 (URotl 13) (EV 1)) (EV 2));
    Set_ 4 (E2 BAdd (EV 4) (EV 7));
    Set_ 7 (E2 BXor (E1 (URotl 50) (EV 7)) (EV 4));
    Set_ 6 (E2 BAdd (EV 6) (EV 5));
    Set_ 5 (E2 BXor (E1 (URotl 10) (EV 5)) (EV 6));
    Set_ 0 (E2 BAdd (EV 0) (EV 3));
    Set_ 3 (E2 BXor (E1 (URotl 17) (EV 3)) (EV 0));
    Set_ 4 (E2 BAdd (EV 4) (EV 1));
    Set_ 1 (E2 BXor (E1 (URotl 25) (EV 1)) (EV 4));
    Set_ 6 (E2 BAdd (EV 6) (EV 3));
    Set_ 3 (E2 BXor (E1 (URotl 29) (EV 3)) (EV 6));
    Set_ 0 (E2 BAdd (EV 0) (EV 5));
    Set_ 5 (E2 BXor (E1 (URotl 39) (EV 5)) (EV 0));
    Set_ 2 (E2 BAdd (EV 2) (EV 7));
    Set_ 7 (E2 BXor (E1 (URotl 43) (EV 7)) (EV 2));
    Set_ 6 (E2 BAdd (EV 6) (EV 1));
    Set_ 1 (E2 BXor (E1 (URotl 8) (EV 1)) (EV 6));
    Set_ 0 (E2 BAdd (EV 0) (EV 7));
    Set_ 7 (E2 BXor (E1 (URotl 35) (EV 7)) (EV 0));
    Set_ 2 (E2 BAdd (EV 2) (EV 5));
    Set_ 5 (E2 BXor (E1 (URotl 56) (EV 5)) (EV 2));
    Set_ 4 (E2 BAdd (EV 4) (EV 3));
    Set_ 3 (E2 BXor (E1 (URotl 22) (EV 3)) (EV 4))];
   [Set_ 1 (E2 BAdd (EV 1) (EV 13));
    Set_ 0 (E2 BAdd (EV 0) (E2 BAdd (EV 1) (EV 12)));
    Set_ 1 (E2 BXor (E1 (URotl 46) (EV 1)) (EV 0));
    Set_ 3 (E2 BAdd (EV 3) (EV 15));
    Set_ 2 (E2 BAdd (EV 2) (E2 BAdd (EV 3) (EV 14)));
    Set_ 3 (E2 BXor (E1 (URotl 36) (EV 3)) (EV 2));
    Set_ 5 (E2 BAdd (EV 5) (E2 BAdd (EV 8) (EV 18)));
    Set_ 4 (E2 BAdd (EV 4) (E2 BAdd (EV 5) (EV 16)));
    Set_ 5 (E2 BXor (E1 (URotl 19) (EV 5)) (EV 4));
    Set_ 7 (E2 BAdd (EV 7) (E2 BAdd (EV 10) (EC 4)));
    Set_ 6 (E2 BAdd (EV 6) (E2 BAdd (E2 BAdd (EV 7) (EV 9)) (EV 19)));
    Set_ 7 (E2 BXor (E1 (URotl 37) (EV 7)) (EV 6));
    Set_ 2 (E2 BAdd (EV 2) (EV 1));
    Set_ 1 (E2 BXor (E1 (URotl 33) (EV 1)) (EV 2));
    Set_ 4 (E2 BAdd (EV 4) (EV 7));
    Set_ 7 (E2 BXor (E1 (URotl 27) (EV 7)) (EV 4));
    Set_ 6 (E2 BAdd (EV 6) (EV 5));
    Set_ 5 (E2 BXor (E1 (URotl 14) (EV 5)) (EV 6));
    Set_ 0 (E2 BAdd (EV 0) (EV 3));
    Set_ 3 (E2 BXor (E1 (URotl 42) (EV 3)) (EV 0));
    Set_ 4 (E2 BAdd (EV 4) (EV 1));
    Set_ 1 (E2 BXor (E1 (URotl 17) (EV 1)) (EV 4));
    Set_ 6 (E2 BAdd (EV 6) (EV 3));
    Set_ 3 (E2 BXor (E1 (URotl 49) (EV 3)) (EV 6));
    Set_ 0 (E2 BAdd (EV 0) (EV 5));
    Set_ 5 (E2 BXor (E1 (URotl 36) (EV 5)) (EV 0));
    Set_ 2 (E2 BAdd (EV 2) (EV 7));
    Set_ 7 (E2 BXor (E1 (URotl 39) (EV 7)) (EV 2));
    Set_ 6 (E2 BAdd (EV 6) (EV 1));
    Set_ 1 (E2 BXor (E1 (URotl 44) (EV 1)) (EV 6));
    Set_ 0 (E2 BAdd (EV 0) (EV 7));
    Set_ 7 (E2 BXor (E1 (URotl 9) (EV 7)) (EV 0));
    Set_ 2 (E2 BAdd (EV 2) (EV 5));
    Set_ 5 (E2 BXor (E1 (URotl 54) (EV 5)) (EV 2));
    Set_ 4 (E2 BAdd (EV 4) (EV 3));
    Set_ 3 (E2 BXor (E1 (URotl 56) (EV 3)) (EV 4))];
   [Set_ 1 (E2 BAdd (EV 1) (EV 14));
    Set_ 0 (E2 BAdd (EV 0) (E2 BAdd (EV 1) (EV 13)));
    Set_ 1 (E2 BXor (E1 (URotl 39) (EV 1)) (EV 0));
    Set_ 3 (E2 BAdd (EV 3) (EV 16));
    Set_ 2 (E2 BAdd (EV 2) (E2 BAdd (EV 3) (EV 15)));
    Set_ 3 (E2 BXor (E1 (URotl 30) (EV 3)) (EV 2));
    Set_ 5 (E2 BAdd (EV 5) (E2 BAdd (EV 9) (EV 19)));
    Set_ 4 (E2 BAdd (EV 4) (E2 BAdd (EV 5) (EV 8)));
    Set_ 5 (E2 BXor (E1 (URotl 34) (EV 5)) (EV 4));
    Set_ 7 (E2 BAdd (EV 7) (E2 BAdd (EV 11) (EC 5)));
    Set_ 6 (E2 BAdd (EV 6) (E2 BAdd (E2 BAdd (EV 7) (EV 10)) (EV 17)));
    Set_ 7 (E2 BXor (E1 (URotl 24) (EV 7)) (EV 6));
    Set_ 2 (E2 BAdd (EV 2) (EV 1));
    Set_ 1 (E2 BXor (E1 (URotl 13) (EV 1)) (EV 2));
    Set_ 4 (E2 BAdd (EV 4) (EV 7));
    Set_ 7 (E2 BXor (E1 (URotl 50) (EV 7)) (EV 4));
    Set_ 6 (E2 BAdd (EV 6) (EV 5));
    Set_ 5 (E2 BXor (E1 (URotl 10) (EV 5)) (EV 6));
    Set_ 0 (E2 BAdd (EV 0) (EV 3));
    Set_ 3 (E2 BXor (E1 (URotl 17) (EV 3)) (EV 0));
    Set_ 4 (E2 BAdd (EV 4) (EV 1));
    Set_ 1 (E2 BXor (E1 (URotl 25) (EV 1)) (EV 4));
    Set_ 6 (E2 BAdd (EV 6) (EV 3));
    Set_ 3 (E2 BXor (E1 (URotl 29) (EV 3)) (EV 6));
    Set_ 0 (E2 BAdd (EV 0) (EV 5));
    Set_ 5 (E2 BXor (E1 (URotl 39) (EV 5)) (EV 0));
    Set_ 2 (E2 BAdd (EV 2) (EV 7));
    Set_ 7 (E2 BXor (E1 (URotl 43) (EV 7)) (EV 2));
    Set_ 6 (E2 BAdd (EV 6) (EV 1));
    Set_ 1 (E2 BXor (E1 (URotl 8) (EV 1)) (EV 6));
    Set_ 0 (E2 BAdd (EV 0) (EV 7));
    Set_ 7 (E2 BXor (E1 (URotl 35) (EV 7)) (EV 0));
    Set_ 2 (E2 BAdd (EV 2) (EV 5));
    Set_ 5 (E2 BXor (E1 (URotl 56) (EV 5)) (EV 2));
    Set_ 4 (E2 BAdd (EV 4) (EV 3));
    Set_ 3 (E2 BXor (E1 (URotl 22) (EV 3)) (EV 4))];
   [Set_ 1 (E2 BAdd (EV 1) (EV 15));
    Set_ 0 (E2 BAdd (EV 0) (E2 BAdd (EV 1) (EV 14)));
    Set_ 1 (E2 BXor (E1 (URotl 46) (EV 1)) (EV 0));
    Set_ 3 (E2 BAdd (EV 3) (EV 8));
    Set_ 2 (E2 BAdd (EV 2) (E2 BAdd (EV 3) (EV 16)));
    Set_ 3 (E2 BXor (E1 (URotl 36) (EV 3)) (EV 2));
    Set_ 5 (E2 BAdd (EV 5) (E2 BAdd (EV 10) (EV 17)));
    Set_ 4 (E2 BAdd (EV 4) (E2 BAdd (EV 5) (EV 9)));
    Set_ 5 (E2 BXor (E1 (URotl 19) (EV 5)) (EV 4));
    Set_ 7 (E2 BAdd (EV 7) (E2 BAdd (EV 12) (EC 6)));
    Set_ 6 (E2 BAdd (EV 6) (E2 BAdd (E2 BAdd (EV 7) (EV 11)) (EV 18)));
    Set_ 7 (E2 BXor (E1 (URotl 37) (EV 7)) (EV 6));
    Set_ 2 (E2 BAdd (EV 2) (EV 1));
    Set_ 1 (E2 BXor (E1 (URotl 33) (EV 1)) (EV 2));
    Set_ 4 (E2 BAdd (EV 4) (EV 7));
    Set_ 7 (E2 BXor (E1 (URotl 27) (EV 7)) (EV 4));
    Set_ 6 (E2 BAdd (EV 6) (EV 5));
    Set_ 5 (E2 BXor (E1 (URotl 14) (EV 5)) (EV 6));
    Set_ 0 (E2 BAdd (EV 0) (EV 3));
    Set_ 3 (E2 BXor (E1 (URotl 42) (EV 3)) (EV 0));
    Set_ 4 (E2 BAdd (EV 4) (EV 1));
    Set_ 1 (E2 BXor (E1 (URotl 17) (EV 1)) (EV 4));
    Set_ 6 (E2 BAdd (EV 6) (EV 3));
    Set_ 3 (E2 BXor (E1 (URotl 49) (EV 3)) (EV 6));
    Set_ 0 (E2 BAdd (EV 0) (EV 5));
    Set_ 5 (E2 BXor (E1 (URotl 36) (EV 5)) (EV 0));
    Set_ 2 (E2 BAdd (EV 2) (EV 7));
    Set_ 7 (E2 BXor (E1 (URotl 39) (EV 7)) (EV 2));
    Set_ 6 (E2 BAdd (EV 6) (EV 1));
    Set_ 1 (E2 BXor (E1 (URotl 44) (EV 1)) (EV 6));
    Set_ 0 (E2 BAdd (EV 0) (EV 7));
    Set_ 7 (E2 BXor (E1 (URotl 9) (EV 7)) (EV 0));
    Set_ 2 (E2 BAdd (EV 2) (EV 5));
    Set_ 5 (E2 BXor (E1 (URotl 54) (EV 5)) (EV 2));
    Set_ 4 (E2 BAdd (EV 4) (EV 3));
    Set_ 3 (E2 BXor (E1 (URotl 56) (EV 3)) (EV 4))];
   [Set_ 1 (E2 BAdd (EV 1) (EV 16));
    Set_ 0 (E2 BAdd (EV 0) (E2 BAdd (EV 1) (EV 15)));
    Set_ 1 (E2 BXor (E1 (URotl 39) (EV 1)) (EV 0));
    Set_ 3 (E2 BAdd (EV 3) (EV 9));
    Set_ 2 (E2 BAdd (EV 2) (E2 BAdd (EV 3) (EV 8)));
    Set_ 3 (E2 BXor (E1 (URotl 30) (EV 3)) (EV 2));
    Set_ 5 (E2 BAdd (EV 5) (E2 BAdd (EV 11) (EV 18)));
    Set_ 4 (E2 BAdd (EV 4) (E2 BAdd (EV 5) (EV 10)));
    Set_ 5 (E2 BXor (E1 (URotl 34) (EV 5)) (EV 4));
    Set_ 7 (E2 BAdd (EV 7) (E2 BAdd (EV 13) (EC 7)));
    Set_ 6 (E2 BAdd (EV 6) (E2 BAdd (E2 BAdd (EV 7) (EV 12)) (EV 19)));
    Set_ 7 (E2 BXor (E1 (URotl 24) (EV 7)) (EV 6));
    Set_ 2 (E2 BAdd (EV 2) (EV 1));
    Set_ 1 (E2 BXor (E1 (URotl 13) (EV 1)) (EV 2));
    Set_ 4 (E2 BAdd (EV 4) (EV 7));
    Set_ 7 (E2 BXor (E1 (URotl 50) (EV 7)) (EV 4));
    Set_ 6 (E2 BAdd (EV 6) (EV 5));
    Set_ 5 (E2 BXor (E1 (URotl 10) (EV 5)) (EV 6));
    Set_ 0 (E2 BAdd (EV 0) (EV 3));
    Set_ 3 (E2 BXor (E1 (URotl 17) (EV 3)) (EV 0));
    Set_ 4 (E2 BAdd (EV 4) (EV 1));
    Set_ 1 (E2 BXor (E1 (URotl 25) (EV 1)) (EV 4));
    Set_ 6 (E2 BAdd (EV 6) (EV 3));
    Set_ 3 (E2 BXor (E1 (URotl 29) (EV 3)) (EV 6));
    Set_ 0 (E2 BAdd (EV 0) (EV 5));
    Set_ 5 (E2 BXor (E1 (URotl 39) (EV 5)) (EV 0));
    Set_ 2 (E2 BAdd (EV 2) (EV 7));
    Set_ 7 (E2 BXor (E1 (URotl 43) (EV 7)) (EV 2));
    Set_ 6 (E2 BAdd (EV 6) (EV 1));
    Set_ 1 (E2 BXor (E1 (URotl 8) (EV 1)) (EV 6));
    Set_ 0 (E2 BAdd (EV 0) (EV 7));
    Set_ 7 (E2 BXor (E1 (URotl 35) (EV 7)) (EV 0));
    Set_ 2 (E2 BAdd (EV 2) (EV 5));
    Set_ 5 (E2 BXor (E1 (URotl 56) (EV 5)) (EV 2));
    Set_ 4 (E2 BAdd (EV 4) (EV 3));
    Set_ 3 (E2 BXor (E1 (URotl 22) (EV 3)) (EV 4))];
   [Set_ 1 (E2 BAdd (EV 1) (EV 8));
    Set_ 0 (E2 BAdd (EV 0) (E2 BAdd (EV 1) (EV 16)));
    Set_ 1 (E2 BXor (E1 (URotl 46) (EV 1)) (EV 0));
    Set_ 3 (E2 BAdd (EV 3) (EV 10));
    Set_ 2 (E2 BAdd (EV 2) (E2 BAdd (EV 3) (EV 9)));
    Set_ 3 (E2 BXor (E1 (URotl 36) (EV 3)) (EV 2));
    Set_ 5 (E2 BAdd (EV 5) (E2 BAdd (EV 12) (EV 19)));
    Set_ 4 (E2 BAdd (EV 4) (E2 BAdd (EV 5) (EV 11)));
    Set_ 5 (E2 BXor (E1 (URotl 19) (EV 5)) (EV 4));
    Set_ 7 (E2 BAdd (EV 7) (E2 BAdd (EV 14) (EC 8)));
    Set_ 6 (E2 BAdd (EV 6) (E2 BAdd (E2 BAdd (EV 7) (EV 13)) (EV 17)));
    Set_ 7 (E2 BXor (E1 (URotl 37) (EV 7)) (EV 6));
    Set_ 2 (E2 BAdd (EV 2) (EV 1));
    Set_ 1 (E2 BXor (E1 (URotl 33) (EV 1)) (EV 2));
    Set_ 4 (E2 BAdd (EV 4) (EV 7));
    Set_ 7 (E2 BXor (E1 (URotl 27) (EV 7)) (EV 4));
    Set_ 6 (E2 BAdd (EV 6) (EV 5));
    Set_ 5 (E2 BXor (E1 (URotl 14) (EV 5)) (EV 6));
    Set_ 0 (E2 BAdd (EV 0) (EV 3));
    Set_ 3 (E2 BXor (E1 (URotl 42) (EV 3)) (EV 0));
    Set_ 4 (E2 BAdd (EV 4) (EV 1));
    Set_ 1 (E2 BXor (E1 (URotl 17) (EV 1)) (EV 4));
    Set_ 6 (E2 BAdd (EV 6) (EV 3));
    Set_ 3 (E2 BXor (E1 (URotl 49) (EV 3)) (EV 6));
    Set_ 0 (E2 BAdd (EV 0) (EV 5));
    Set_ 5 (E2 BXor (E1 (URotl 36) (EV 5)) (EV 0));
    Set_ 2 (E2 BAdd (EV 2) (EV 7));
    Set_ 7 (E2 BXor (E1 (URotl 39) (EV 7)) (EV 2));
    Set_ 6 (E2 BAdd (EV 6) (EV 1));
    Set_ 1 (E2 BXor (E1 (URotl 44) (EV 1)) (EV 6));
    Set_ 0 (E2 BAdd (EV 0) (EV 7));
    Set_ 7 (E2 BXor (E1 (URotl 9) (EV 7)) (EV 0));
    Set_ 2 (E2 BAdd (EV 2) (EV 5));
    Set_ 5 (E2 BXor (E1 (URotl 54) (EV 5)) (EV 2));
    Set_ 4 (E2 BAdd (EV 4) (EV 3));
    Set_ 3 (E2 BXor (E1 (URotl 56) (EV 3)) (EV 4))];
   [Set_ 1 (E2 BAdd (EV 1) (EV 9));
    Set_ 0 (E2 BAdd (EV 0) (E2 BAdd (EV 1) (EV 8)));
    Set_ 1 (E2 BXor (E1 (URotl 39) (EV 1)) (EV 0));
    Set_ 3 (E2 BAdd (EV 3) (EV 11));
    Set_ 2 (E2 BAdd (EV 2) (E2 BAdd (EV 3) (EV 10)));
    Set_ 3 (E2 BXor (E1 (URotl 30) (EV 3)) (EV 2));
    Set_ 5 (E2 BAdd (EV 5) (E2 BAdd (EV 13) (EV 17)));
    Set_ 4 (E2 BAdd (EV 4) (E2 BAdd (EV 5) (EV 12)));
    Set_ 5 (E2 BXor (E1 (URotl 34) (EV 5)) (EV 4));
    Set_ 7 (E2 BAdd (EV 7) (E2 BAdd (EV 15) (EC 9)));
    Set_ 6 (E2 BAdd (EV 6) (E2 BAdd (E2 BAdd (EV 7) (EV 14)) (EV 18)));
    Set_ 7 (E2 BXor (E1 (URotl 24) (EV 7)) (EV 6));
    Set_ 2 (E2 BAdd (EV 2) (EV 1));
    Set_ 1 (E2 BXor (E1 (URotl 13) (EV 1)) (EV 2));
    Set_ 4 (E2 BAdd (EV 4) (EV 7));
    Set_ 7 (E2 BXor (E1 (URotl 50) (EV 7)) (EV 4));
    Set_ 6 (E2 BAdd (EV 6) (EV 5));
    Set_ 5 (E2 BXor (E1 (URotl 10) (EV 5)) (EV 6));
    Set_ 0 (E2 BAdd (EV 0) (EV 3));
    Set_ 3 (E2 BXor (E1 (URotl 17) (EV 3)) (EV 0));
    Set_ 4 (E2 BAdd (EV 4) (EV 1));
    Set_ 1 (E2 BXor (E1 (URotl 25) (EV 1)) (EV 4));
    Set_ 6 (E2 BAdd (EV 6) (EV 3));
    Set_ 3 (E2 BXor (E1 (URotl 29) (EV 3)) (EV 6));
    Set_ 0 (E2 BAdd (EV 0) (EV 5));
    Set_ 5 (E2 BXor (E1 (URotl 39) (EV 5)) (EV 0));
    Set_ 2 (E2 BAdd (EV 2) (EV 7));
    Set_ 7 (E2 BXor (E1 (URotl 43) (EV 7)) (EV 2));
    Set_ 6 (E2 BAdd (EV 6) (EV 1));
    Set_ 1 (E2 BXor (E1 (URotl 8) (EV 1)) (EV 6));
    Set_ 0 (E2 BAdd (EV 0) (EV 7));
    Set_ 7 (E2 BXor (E1 (URotl 35) (EV 7)) (EV 0));
    Set_ 2 (E2 BAdd (EV 2) (EV 5));
    Set_ 5 (E2 BXor (E1 (URotl 56) (EV 5)) (EV 2));
    Set_ 4 (E2 BAdd (EV 4) (EV 3));
    Set_ 3 (E2 BXor (E1 (URotl 22) (EV 3)) (EV 4))];
   [Set_ 1 (E2 BAdd (EV 1) (EV 10));
    Set_ 0 (E2 BAdd (EV 0) (E2 BAdd (EV 1) (EV 9)));
    Set_ 1 (E2 BXor (E1 (URotl 46) (EV 1)) (EV 0));
    Set_ 3 (E2 BAdd (EV 3) (EV 12));
    Set_ 2 (E2 BAdd (EV 2) (E2 BAdd (EV 3) (EV 11)));
    Set_ 3 (E2 BXor (E1 (URotl 36) (EV 3)) (EV 2));
    Set_ 5 (E2 BAdd (EV 5) (E2 BAdd (EV 14) (EV 18)));
    Set_ 4 (E2 BAdd (EV 4) (E2 BAdd (EV 5) (EV 13)));
    Set_ 5 (E2 BXor (E1 (URotl 19) (EV 5)) (EV 4));
    Set_ 7 (E2 BAdd (EV 7) (E2 BAdd (EV 16) (EC 10)));
    Set_ 6 (E2 BAdd (EV 6) (E2 BAdd (E2 BAdd (EV 7) (EV 15)) (EV 19)));
    Set_ 7 (E2 BXor (E1 (URotl 37) (EV 7)) (EV 6));
    Set_ 2 (E2 BAdd (EV 2) (EV 1));
    Set_ 1 (E2 BXor (E1 (URotl 33) (EV 1)) (EV 2));
    Set_ 4 (E2 BAdd (EV 4) (EV 7));
    Set_ 7 (E2 BXor (E1 (URotl 27) (EV 7)) (EV 4));
    Set_ 6 (E2 BAdd (EV 6) (EV 5));
    Set_ 5 (E2 BXor (E1 (URotl 14) (EV 5)) (EV 6));
    Set_ 0 (E2 BAdd (EV 0) (EV 3));
    Set_ 3 (E2 BXor (E1 (URotl 42) (EV 3)) (EV 0));
    Set_ 4 (E2 BAdd (EV 4) (EV 1));
    Set_ 1 (E2 BXor (E1 (URotl 17) (EV 1)) (EV 4));
    Set_ 6 (E2 BAdd (EV 6) (EV 3));
    Set_ 3 (E2 BXor (E1 (URotl 49) (EV 3)) (EV 6));
    Set_ 0 (E2 BAdd (EV 0) (EV 5));
    Set_ 5 (E2 BXor (E1 (URotl 36) (EV 5)) (EV 0));
    Set_ 2 (E2 BAdd (EV 2) (EV 7));
    Set_ 7 (E2 BXor (E1 (URotl 39) (EV 7)) (EV 2));
    Set_ 6 (E2 BAdd (EV 6) (EV 1));
    Set_ 1 (E2 BXor (E1 (URotl 44) (EV 1)) (EV 6));
    Set_ 0 (E2 BAdd (EV 0) (EV 7));
    Set_ 7 (E2 BXor (E1 (URotl 9) (EV 7)) (EV 0));
    Set_ 2 (E2 BAdd (EV 2) (EV 5));
    Set_ 5 (E2 BXor (E1 (URotl 54) (EV 5)) (EV 2));
    Set_ 4 (E2 BAdd (EV 4) (EV 3));
    Set_ 3 (E2 BXor (E1 (URotl 56) (EV 3)) (EV 4))];
   [Set_ 1 (E2 BAdd (EV 1) (EV 11));
    Set_ 0 (E2 BAdd (EV 0) (E2 BAdd (EV 1) (EV 10)));
    Set_ 1 (E2 BXor (E1 (URotl 39) (EV 1)) (EV 0));
    Set_ 3 (E2 BAdd (EV 3) (EV 13));
    Set_ 2 (E2 BAdd (EV 2) (E2 BAdd (EV 3) (EV 12)));
    Set_ 3 (E2 BXor (E1 (URotl 30) (EV 3)) (EV 2));
    Set_ 5 (E2 BAdd (EV 5) (E2 BAdd (EV 15) (EV 19)));
    Set_ 4 (E2 BAdd (EV 4) (E2 BAdd (EV 5) (EV 14)));
    Set_ 5 (E2 BXor (E1 (URotl 34) (EV 5)) (EV 4));
    Set_ 7 (E2 BAdd (EV 7) (E2 BAdd (EV 8) (EC 11)));
    Set_ 6 (E2 BAdd (EV 6) (E2 BAdd (E2 BAdd (EV 7) (EV 16)) (EV 17)));
    Set_ 7 (E2 BXor (E1 (URotl 24) (EV 7)) (EV 6));
    Set_ 2 (E2 BAdd (EV 2) (EV 1));
    Set_ 1 (E2 BXor (E1 (URotl 13) (EV 1)) (EV 2));
    Set_ 4 (E2 BAdd (EV 4) (EV 7));
    Set_ 7 (E2 BXor (E1 (URotl 50) (EV 7)) (EV 4));
    Set_ 6 (E2 BAdd (EV 6) (EV 5));
    Set_ 5 (E2 BXor (E1 (URotl 10) (EV 5)) (EV 6));
    Set_ 0 (E2 BAdd (EV 0) (EV 3));
    Set_ 3 (E2 BXor (E1 (URotl 17) (EV 3)) (EV 0));
    Set_ 4 (E2 BAdd (EV 4) (EV 1));
    Set_ 1 (E2 BXor (E1 (URotl 25) (EV 1)) (EV 4));
    Set_ 6 (E2 BAdd (EV 6) (EV 3));
    Set_ 3 (E2 BXor (E1 (URotl 29) (EV 3)) (EV 6));
    Set_ 0 (E2 BAdd (EV 0) (EV 5));
    Set_ 5 (E2 BXor (E1 (URotl 39) (EV 5)) (EV 0));
    Set_ 2 (E2 BAdd (EV 2) (EV 7));
    Set_ 7 (E2 BXor (E1 (URotl 43) (EV 7)) (EV 2));
    Set_ 6 (E2 BAdd (EV 6) (EV 1));
    Set_ 1 (E2 BXor (E1 (URotl 8) (EV 1)) (EV 6));
    Set_ 0 (E2 BAdd (EV 0) (EV 7));
    Set_ 7 (E2 BXor (E1 (URotl 35) (EV 7)) (EV 0));
    Set_ 2 (E2 BAdd (EV 2) (EV 5));
    Set_ 5 (E2 BXor (E1 (URotl 56) (EV 5)) (EV 2));
    Set_ 4 (E2 BAdd (EV 4) (EV 3));
    Set_ 3 (E2 BXor (E1 (URotl 22) (EV 3)) (EV 4))];
   [Set_ 1 (E2 BAdd (EV 1) (EV 12));
    Set_ 0 (E2 BAdd (EV 0) (E2 BAdd (EV 1) (EV 11)));
    Set_ 1 (E2 BXor (E1 (URotl 46) (EV 1)) (EV 0));
    Set_ 3 (E2 BAdd (EV 3) (EV 14));
    Set_ 2 (E2 BAdd (EV 2) (E2 BAdd (EV 3) (EV 13)));
    Set_ 3 (E2 BXor (E1 (URotl 36) (EV 3)) (EV 2));
    Set_ 5 (E2 BAdd (EV 5) (E2 BAdd (EV 16) (EV 17)));
    Set_ 4 (E2 BAdd (EV 4) (E2 BAdd (EV 5) (EV 15)));
    Set_ 5 (E2 BXor (E1 (URotl 19) (EV 5)) (EV 4));
    Set_ 7 (E2 BAdd (EV 7) (E2 BAdd (EV 9) (EC 12)));
    Set_ 6 (E2 BAdd (EV 6) (E2 BAdd (E2 BAdd (EV 7) (EV 8)) (EV 18)));
    Set_ 7 (E2 BXor (E1 (URotl 37) (EV 7)) (EV 6));
    Set_ 2 (E2 BAdd (EV 2) (EV 1));
    Set_ 1 (E2 BXor (E1 (URotl 33) (EV 1)) (EV 2));
    Set_ 4 (E2 BAdd (EV 4) (EV 7));
    Set_ 7 (E2 BXor (E1 (URotl 27) (EV 7)) (EV 4));
    Set_ 6 (E2 BAdd (EV 6) (EV 5));
    Set_ 5 (E2 BXor (E1 (URotl 14) (EV 5)) (EV 6));
    Set_ 0 (E2 BAdd (EV 0) (EV 3));
    Set_ 3 (E2 BXor (E1 (URotl 42) (EV 3)) (EV 0));
    Set_ 4 (E2 BAdd (EV 4) (EV 1));
    Set_ 1 (E2 BXor (E1 (URotl 17) (EV 1)) (EV 4));
    Set_ 6 (E2 BAdd (EV 6) (EV 3));
    Set_ 3 (E2 BXor (E1 (URotl 49) (EV 3)) (EV 6));
    Set_ 0 (E2 BAdd (EV 0) (EV 5));
    Set_ 5 (E2 BXor (E1 (URotl 36) (EV 5)) (EV 0));
    Set_ 2 (E2 BAdd (EV 2) (EV 7));
    Set_ 7 (E2 BXor (E1 (URotl 39) (EV 7)) (EV 2));
    Set_ 6 (E2 BAdd (EV 6) (EV 1));
    Set_ 1 (E2 BXor (E1 (URotl 44) (EV 1)) (EV 6));
    Set_ 0 (E2 BAdd (EV 0) (EV 7));
    Set_ 7 (E2 BXor (E1 (URotl 9) (EV 7)) (EV 0));
    Set_ 2 (E2 BAdd (EV 2) (EV 5));
    Set_ 5 (E2 BXor (E1 (URotl 54) (EV 5)) (EV 2));
    Set_ 4 (E2 BAdd (EV 4) (EV 3));
    Set_ 3 (E2 BXor (E1 (URotl 56) (EV 3)) (EV 4))];
   [Set_ 1 (E2 BAdd (EV 1) (EV 13));
    Set_ 0 (E2 BAdd (EV 0) (E2 BAdd (EV 1) (EV 12)));
    Set_ 1 (E2 BXor (E1 (URotl 39) (EV 1)) (EV 0));
    Set_ 3 (E2 BAdd (EV 3) (EV 15));
    Set_ 2 (E2 BAdd (EV 2) (E2 BAdd (EV 3) (EV 14)));
    Set_ 3 (E2 BXor (E1 (URotl 30) (EV 3)) (EV 2));
    Set_ 5 (E2 BAdd (EV 5) (E2 BAdd (EV 8) (EV 18)));
    Set_ 4 (E2 BAdd (EV 4) (E2 BAdd (EV 5) (EV 16)));
    Set_ 5 (E2 BXor (E1 (URotl 34) (EV 5)) (EV 4));
    Set_ 7 (E2 BAdd (EV 7) (E2 BAdd (EV 10) (EC 13)));
    Set_ 6 (E2 BAdd (EV 6) (E2 BAdd (E2 BAdd (EV 7) (EV 9)) (EV 19)));
    Set_ 7 (E2 BXor (E1 (URotl 24) (EV 7)) (EV 6));
    Set_ 2 (E2 BAdd (EV 2) (EV 1));
    Set_ 1 (E2 BXor (E1 (URotl 13) (EV 1)) (EV 2));
    Set_ 4 (E2 BAdd (EV 4) (EV 7));
    Set_ 7 (E2 BXor (E1 (URotl 50) (EV 7)) (EV 4));
    Set_ 6 (E2 BAdd (EV 6) (EV 5));
    Set_ 5 (E2 BXor (E1 (URotl 10) (EV 5)) (EV 6));
    Set_ 0 (E2 BAdd (EV 0) (EV 3));
    Set_ 3 (E2 BXor (E1 (URotl 17) (EV 3)) (EV 0));
    Set_ 4 (E2 BAdd (EV 4) (EV 1));
    Set_ 1 (E2 BXor (E1 (URotl 25) (EV 1)) (EV 4));
    Set_ 6 (E2 BAdd (EV 6) (EV 3));
    Set_ 3 (E2 BXor (E1 (URotl 29) (EV 3)) (EV 6));
    Set_ 0 (E2 BAdd (EV 0) (EV 5));
    Set_ 5 (E2 BXor (E1 (URotl 39) (EV 5)) (EV 0));
    Set_ 2 (E2 BAdd (EV 2) (EV 7));
    Set_ 7 (E2 BXor (E1 (URotl 43) (EV 7)) (EV 2));
    Set_ 6 (E2 BAdd (EV 6) (EV 1));
    Set_ 1 (E2 BXor (E1 (URotl 8) (EV 1)) (EV 6));
    Set_ 0 (E2 BAdd (EV 0) (EV 7));
    Set_ 7 (E2 BXor (E1 (URotl 35) (EV 7)) (EV 0));
    Set_ 2 (E2 BAdd (EV 2) (EV 5));
    Set_ 5 (E2 BXor (E1 (URotl 56) (EV 5)) (EV 2));
    Set_ 4 (E2 BAdd (EV 4) (EV 3));
    Set_ 3 (E2 BXor (E1 (URotl 22) (EV 3)) (EV 4))];
   [Set_ 1 (E2 BAdd (EV 1) (EV 14));
    Set_ 0 (E2 BAdd (EV 0) (E2 BAdd (EV 1) (EV 13)));
    Set_ 1 (E2 BXor (E1 (URotl 46) (EV 1)) (EV 0));
    Set_ 3 (E2 BAdd (EV 3) (EV 16));
    Set_ 2 (E2 BAdd (EV 2) (E2 BAdd (EV 3) (EV 15)));
    Set_ 3 (E2 BXor (E1 (URotl 36) (EV 3)) (EV 2));
    Set_ 5 (E2 BAdd (EV 5) (E2 BAdd (EV 9) (EV 19)));
    Set_ 4 (E2 BAdd (EV 4) (E2 BAdd (EV 5) (EV 8)));
    Set_ 5 (E2 BXor (E1 (URotl 19) (EV 5)) (EV 4));
    Set_ 7 (E2 BAdd (EV 7) (E2 BAdd (EV 11) (EC 14)));
    Set_ 6 (E2 BAdd (EV 6) (E2 BAdd (E2 BAdd (EV 7) (EV 10)) (EV 17)));
    Set_ 7 (E2 BXor (E1 (URotl 37) (EV 7)) (EV 6));
    Set_ 2 (E2 BAdd (EV 2) (EV 1));
    Set_ 1 (E2 BXor (E1 (URotl 33) (EV 1)) (EV 2));
    Set_ 4 (E2 BAdd (EV 4) (EV 7));
    Set_ 7 (E2 BXor (E1 (URotl 27) (EV 7)) (EV 4));
    Set_ 6 (E2 BAdd (EV 6) (EV 5));
    Set_ 5 (E2 BXor (E1 (URotl 14) (EV 5)) (EV 6));
    Set_ 0 (E2 BAdd (EV 0) (EV 3));
    Set_ 3 (E2 BXor (E1 (URotl 42) (EV 3)) (EV 0));
    Set_ 4 (E2 BAdd (EV 4) (EV 1));
    Set_ 1 (E2 BXor (E1 (URotl 17) (EV 1)) (EV 4));
    Set_ 6 (E2 BAdd (EV 6) (EV 3));
    Set_ 3 (E2 BXor (E1 (URotl 49) (EV 3)) (EV 6));
    Set_ 0 (E2 BAdd (EV 0) (EV 5));
    Set_ 5 (E2 BXor (E1 (URotl 36) (EV 5)) (EV 0));
    Set_ 2 (E2 BAdd (EV 2) (EV 7));
    Set_ 7 (E2 BXor (E1 (URotl 39) (EV 7)) (EV 2));
    Set_ 6 (E2 BAdd (EV 6) (EV 1));
    Set_ 1 (E2 BXor (E1 (URotl 44) (EV 1)) (EV 6));
    Set_ 0 (E2 BAdd (EV 0) (EV 7));
    Set_ 7 (E2 BXor (E1 (URotl 9) (EV 7)) (EV 0));
    Set_ 2 (E2 BAdd (EV 2) (EV 5));
    Set_ 5 (E2 BXor (E1 (URotl 54) (EV 5)) (EV 2));
    Set_ 4 (E2 BAdd (EV 4) (EV 3));
    Set_ 3 (E2 BXor (E1 (URotl 56) (EV 3)) (EV 4))];
   [Set_ 1 (E2 BAdd (EV 1) (EV 15));
    Set_ 0 (E2 BAdd (EV 0) (E2 BAdd (EV 1) (EV 14)));
    Set_ 1 (E2 BXor (E1 (URotl 39) (EV 1)) (EV 0));
    Set_ 3 (E2 BAdd (EV 3) (EV 8));
    Set_ 2 (E2 BAdd (EV 2) (E2 BAdd (EV 3) (EV 16)));
    Set_ 3 (E2 BXor (E1 (URotl 30) (EV 3)) (EV 2));
    Set_ 5 (E2 BAdd (EV 5) (E2 BAdd (EV 10) (EV 17)));
    Set_ 4 (E2 BAdd (EV 4) (E2 BAdd (EV 5) (EV 9)));
    Set_ 5 (E2 BXor (E1 (URotl 34) (EV 5)) (EV 4));
    Set_ 7 (E2 BAdd (EV 7) (E2 BAdd (EV 12) (EC 15)));
    Set_ 6 (E2 BAdd (EV 6) (E2 BAdd (E2 BAdd (EV 7) (EV 11)) (EV 18)));
    Set_ 7 (E2 BXor (E1 (URotl 24) (EV 7)) (EV 6));
    Set_ 2 (E2 BAdd (EV 2) (EV 1));
    Set_ 1 (E2 BXor (E1 (URotl 13) (EV 1)) (EV 2));
    Set_ 4 (E2 BAdd (EV 4) (EV 7));
    Set_ 7 (E2 BXor (E1 (URotl 50) (EV 7)) (EV 4));
    Set_ 6 (E2 BAdd (EV 6) (EV 5));
    Set_ 5 (E2 BXor (E1 (URotl 10) (EV 5)) (EV 6));
    Set_ 0 (E2 BAdd (EV 0) (EV 3));
    Set_ 3 (E2 BXor (E1 (URotl 17) (EV 3)) (EV 0));
    Set_ 4 (E2 BAdd (EV 4) (EV 1));
    Set_ 1 (E2 BXor (E1 (URotl 25) (EV 1)) (EV 4));
    Set_ 6 (E2 BAdd (EV 6) (EV 3));
    Set_ 3 (E2 BXor (E1 (URotl 29) (EV 3)) (EV 6));
    Set_ 0 (E2 BAdd (EV 0) (EV 5));
    Set_ 5 (E2 BXor (E1 (URotl 39) (EV 5)) (EV 0));
    Set_ 2 (E2 BAdd (EV 2) (EV 7));
    Set_ 7 (E2 BXor (E1 (URotl 43) (EV 7)) (EV 2));
    Set_ 6 (E2 BAdd (EV 6) (EV 1));
    Set_ 1 (E2 BXor (E1 (URotl 8) (EV 1)) (EV 6));
    Set_ 0 (E2 BAdd (EV 0) (EV 7));
    Set_ 7 (E2 BXor (E1 (URotl 35) (EV 7)) (EV 0));
    Set_ 2 (E2 BAdd (EV 2) (EV 5));
    Set_ 5 (E2 BXor (E1 (URotl 56) (EV 5)) (EV 2));
    Set_ 4 (E2 BAdd (EV 4) (EV 3));
    Set_ 3 (E2 BXor (E1 (URotl 22) (EV 3)) (EV 4))];
   [Set_ 1 (E2 BAdd (EV 1) (EV 16));
    Set_ 0 (E2 BAdd (EV 0) (E2 BAdd (EV 1) (EV 15)));
    Set_ 1 (E2 BXor (E1 (URotl 46) (EV 1)) (EV 0));
    Set_ 3 (E2 BAdd (EV 3) (EV 9));
    Set_ 2 (E2 BAdd (EV 2) (E2 BAdd (EV 3) (EV 8)));
    Set_ 3 (E2 BXor (E1 (URotl 36) (EV 3)) (EV 2));
    Set_ 5 (E2 BAdd (EV 5) (E2 BAdd (EV 11) (EV 18)));
    Set_ 4 (E2 BAdd (EV 4) (E2 BAdd (EV 5) (EV 10)));
    Set_ 5 (E2 BXor (E1 (URotl 19) (EV 5)) (EV 4));
    Set_ 7 (E2 BAdd (EV 7) (E2 BAdd (EV 13) (EC 16)));
    Set_ 6 (E2 BAdd (EV 6) (E2 BAdd (E2 BAdd (EV 7) (EV 12)) (EV 19)));
    Set_ 7 (E2 BXor (E1 (URotl 37) (EV 7)) (EV 6));
    Set_ 2 (E2 BAdd (EV 2) (EV 1));
    Set_ 1 (E2 BXor (E1 (URotl 33) (EV 1)) (EV 2));
    Set_ 4 (E2 BAdd (EV 4) (EV 7));
    Set_ 7 (E2 BXor (E1 (URotl 27) (EV 7)) (EV 4));
    Set_ 6 (E2 BAdd (EV 6) (EV 5));
    Set_ 5 (E2 BXor (E1 (URotl 14) (EV 5)) (EV 6));
    Set_ 0 (E2 BAdd (EV 0) (EV 3));
    Set_ 3 (E2 BXor (E1 (URotl 42) (EV 3)) (EV 0));
    Set_ 4 (E2 BAdd (EV 4) (EV 1));
    Set_ 1 (E2 BXor (E1 (URotl 17) (EV 1)) (EV 4));
    Set_ 6 (E2 BAdd (EV 6) (EV 3));
    Set_ 3 (E2 BXor (E1 (URotl 49) (EV 3)) (EV 6));
    Set_ 0 (E2 BAdd (EV 0) (EV 5));
    Set_ 5 (E2 BXor (E1 (URotl 36) (EV 5)) (EV 0));
    Set_ 2 (E2 BAdd (EV 2) (EV 7));
    Set_ 7 (E2 BXor (E1 (URotl 39) (EV 7)) (EV 2));
    Set_ 6 (E2 BAdd (EV 6) (EV 1));
    Set_ 1 (E2 BXor (E1 (URotl 44) (EV 1)) (EV 6));
    Set_ 0 (E2 BAdd (EV 0) (EV 7));
    Set_ 7 (E2 BXor (E1 (URotl 9) (EV 7)) (EV 0));
    Set_ 2 (E2 BAdd (EV 2) (EV 5));
    Set_ 5 (E2 BXor (E1 (URotl 54) (EV 5)) (EV 2));
    Set_ 4 (E2 BAdd (EV 4) (EV 3));
    Set_ 3 (E2 BXor (E1 (URotl 56) (EV 3)) (EV 4))];
   [Set_ 1 (E2 BAdd (EV 1) (EV 8));
    Set_ 0 (E2 BAdd (EV 0) (E2 BAdd (EV 1) (EV 16)));
    Set_ 1 (E2 BXor (E1 (URotl 39) (EV 1)) (EV 0));
    Set_ 3 (E2 BAdd (EV 3) (EV 10));
    Set_ 2 (E2 BAdd (EV 2) (E2 BAdd (EV 3) (EV 9)));
    Set_ 3 (E2 BXor (E1 (URotl 30) (EV 3)) (EV 2));
    Set_ 5 (E2 BAdd (EV 5) (E2 BAdd (EV 12) (EV 19)));
    Set_ 4 (E2 BAdd (EV 4) (E2 BAdd (EV 5) (EV 11)));
    Set_ 5 (E2 BXor (E1 (URotl 34) (EV 5)) (EV 4));
    Set_ 7 (E2 BAdd (EV 7) (E2 BAdd (EV 14) (EC 17)));
    Set_ 6 (E2 BAdd (EV 6) (E2 BAdd (E2 BAdd (EV 7) (EV 13)) (EV 17)));
    Set_ 7 (E2 BXor (E1 (URotl 24) (EV 7)) (EV 6));
    Set_ 2 (E2 BAdd (EV 2) (EV 1));
    Set_ 1 (E2 BXor (E1 (URotl 13) (EV 1)) (EV 2));
    Set_ 4 (E2 BAdd (EV 4) (EV 7));
    Set_ 7 (E2 BXor (E1 (URotl 50) (EV 7)) (EV 4));
    Set_ 6 (E2 BAdd (EV 6) (EV 5));
    Set_ 5 (E2 BXor (E1 (URotl 10) (EV 5)) (EV 6));
    Set_ 0 (E2 BAdd (EV 0) (EV 3));
    Set_ 3 (E2 BXor (E1 (URotl 17) (EV 3)) (EV 0));
    Set_ 4 (E2 BAdd (EV 4) (EV 1));
    Set_ 1 (E2 BXor (E1 (URotl 25) (EV 1)) (EV 4));
    Set_ 6 (E2 BAdd (EV 6) (EV 3));
    Set_ 3 (E2 BXor (E1 (URotl 29) (EV 3)) (EV 6));
    Set_ 0 (E2 BAdd (EV 0) (EV 5));
    Set_ 5 (E2 BXor (E1 (URotl 39) (EV 5)) (EV 0));
    Set_ 2 (E2 BAdd (EV 2) (EV 7));
    Set_ 7 (E2 BXor (E1 (URotl 43) (EV 7)) (EV 2));
    Set_ 6 (E2 BAdd (EV 6) (EV 1));
    Set_ 1 (E2 BXor (E1 (URotl 8) (EV 1)) (EV 6));
    Set_ 0 (E2 BAdd (EV 0) (EV 7));
    Set_ 7 (E2 BXor (E1 (URotl 35) (EV 7)) (EV 0));
    Set_ 2 (E2 BAdd (EV 2) (EV 5));
    Set_ 5 (E2 BXor (E1 (URotl 56) (EV 5)) (EV 2));
    Set_ 4 (E2 BAdd (EV 4) (EV 3));
    Set_ 3 (E2 BXor (E1 (URotl 22) (EV 3)) (EV 4))]].
(** output[i] = ..., in increasing order of i, threefish512.go:757-764. *)
Definition enc512_out : list exp :=
  [(E2 BAdd (EV 0) (EV 8));
   (E2 BAdd (EV 1) (EV 9));
   (E2 BAdd (EV 2) (EV 10));
   (E2 BAdd (EV 3) (EV 11));
   (E2 BAdd (EV 4) (EV 12));
   (E2 BAdd (E2 BAdd (EV 5) (EV 13)) (EV 17));
   (E2 BAdd (E2 BAdd (EV 6) (EV 14)) (EV 18));
   (E2 BAdd (E2 BAdd (EV 7) (EV 15)) (EC 18))].
(** threefish512.go:794-1737. *)
Definition dec512_groups : list prog :=
  [[Set_ 0 (E2 BSub (EV 0) (EV 8));
    Set_ 1 (E2 BSub (EV 1) (EV 9));
    Set_ 2 (E2 BSub (EV 2) (EV 10));
    Set_ 3 (E2 BSub (EV 3) (EV 11));
    Set_ 4 (E2 BSub (EV 4) (EV 12));
    Set_ 5 (E2 BSub (EV 5) (E2 BAdd (EV 13) (EV 17)));
    Set_ 6 (E2 BSub (EV 6) (E2 BAdd (EV 14) (EV 18)));
    Set_ 7 (E2 BSub (EV 7) (E2 BAdd (EV 15) (EC 18)))];
   [Set_ 20 (E2 BXor (EV 3) (EV 4));
    Set_ 3 (E1 (URotr 22) (EV 20));
    Set_ 4 (E2 BSub (EV 4) (EV 3));
    Set_ 20 (E2 BXor (EV 5) (EV 2));
    Set_ 5 (E1 (URotr 56) (EV 20));
    Set_ 2 (E2 BSub (EV 2) (EV 5));
    Set_ 20 (E2 BXor (EV 7) (EV 0));
    Set_ 7 (E1 (URotr 35) (EV 20));
    Set_ 0 (E2 BSub (EV 0) (EV 7));
    Set_ 20 (E2 BXor (EV 1) (EV 6));
    Set_ 1 (E1 (URotr 8) (EV 20));
    Set_ 6 (E2 BSub (EV 6) (EV 1));
    Set_ 20 (E2 BXor (EV 7) (EV 2));
    Set_ 7 (E1 (URotr 43) (EV 20));
    Set_ 2 (E2 BSub (EV 2) (EV 7));
    Set_ 20 (E2 BXor (EV 5) (EV 0));
    Set_ 5 (E1 (URotr 39) (EV 20));
    Set_ 0 (E2 BSub (EV 0) (EV 5));
    Set_ 20 (E2 BXor (EV 3) (EV 6));
    Set_ 3 (E1 (URotr 29) (EV 20));
    Set_ 6 (E2 BSub (EV 6) (EV 3));
    Set_ 20 (E2 BXor (EV 1) (EV 4));
    Set_ 1 (E1 (URotr 25) (EV 20));
    Set_ 4 (E2 BSub (EV 4) (EV 1));
    Set_ 20 (E2 BXor (EV 3) (EV 0));
    Set_ 3 (E1 (URotr 17) (EV 20));
    Set_ 0 (E2 BSub (EV 0) (EV 3));
    Set_ 20 (E2 BXor (EV 5) (EV 6));
    Set_ 5 (E1 (URotr 10) (EV 20));
    Set_ 6 (E2 BSub (EV 6) (EV 5));
    Set_ 20 (E2 BXor (EV 7) (EV 4));
    Set_ 7 (E1 (URotr 50) (EV 20));
    Set_ 4 (E2 BSub (EV 4) (EV 7));
    Set_ 20 (E2 BXor (EV 1) (EV 2));
    Set_ 1 (E1 (URotr 13) (EV 20));
    Set_ 2 (E2 BSub (EV 2) (EV 1));
    Set_ 20 (E2 BXor (EV 7) (EV 6));
    Set_ 7 (E1 (URotr 24) (EV 20));
    Set_ 6 (E2 BSub (EV 6) (E2 BAdd (E2 BAdd (EV 7) (EV 13)) (EV 17)));
    Set_ 7 (E2 BSub (EV 7) (E2 BAdd (EV 14) (EC 17)));
    Set_ 20 (E2 BXor (EV 5) (EV 4));
    Set_ 5 (E1 (URotr 34) (EV 20));
    Set_ 4 (E2 BSub (EV 4) (E2 BAdd (EV 5) (EV 11)));
    Set_ 5 (E2 BSub (EV 5) (E2 BAdd (EV 12) (EV 19)));
    Set_ 20 (E2 BXor (EV 3) (EV 2));
    Set_ 3 (E1 (URotr 30) (EV 20));
    Set_ 2 (E2 BSub (EV 2) (E2 BAdd (EV 3) (EV 9)));
    Set_ 3 (E2 BSub (EV 3) (EV 10));
    Set_ 20 (E2 BXor (EV 1) (EV 0));
    Set_ 1 (E1 (URotr 39) (EV 20));
    Set_ 0 (E2 BSub (EV 0) (E2 BAdd (EV 1) (EV 16)));
    Set_ 1 (E2 BSub (EV 1) (EV 8))];
   [Set_ 20 (E2 BXor (EV 3) (EV 4));
    Set_ 3 (E1 (URotr 56) (EV 20));
    Set_ 4 (E2 BSub (EV 4) (EV 3));
    Set_ 20 (E2 BXor (EV 5) (EV 2));
    Set_ 5 (E1 (URotr 54) (EV 20));
    Set_ 2 (E2 BSub (EV 2) (EV 5));
    Set_ 20 (E2 BXor (EV 7) (EV 0));
    Set_ 7 (E1 (URotr 9) (EV 20));
    Set_ 0 (E2 BSub (EV 0) (EV 7));
    Set_ 20 (E2 BXor (EV 1) (EV 6));
    Set_ 1 (E1 (URotr 44) (EV 20));
    Set_ 6 (E2 BSub (EV 6) (EV 1));
    Set_ 20 (E2 BXor (EV 7) (EV 2));
    Set_ 7 (E1 (URotr 39) (EV 20));
    Set_ 2 (E2 BSub (EV 2) (EV 7));
    Set_ 20 (E2 BXor (EV 5) (EV 0));
    Set_ 5 (E1 (URotr 36) (EV 20));
    Set_ 0 (E2 BSub (EV 0) (EV 5));
    Set_ 20 (E2 BXor (EV 3) (EV 6));
    Set_ 3 (E1 (URotr 49) (EV 20));
    Set_ 6 (E2 BSub (EV 6) (EV 3));
    Set_ 20 (E2 BXor (EV 1) (EV 4));
    Set_ 1 (E1 (URotr 17) (EV 20));
    Set_ 4 (E2 BSub (EV 4) (EV 1));
    Set_ 20 (E2 BXor (EV 3) (EV 0));
    Set_ 3 (E1 (URotr 42) (EV 20));
    Set_ 0 (E2 BSub (EV 0) (EV 3));
    Set_ 20 (E2 BXor (EV 5) (EV 6));
    Set_ 5 (E1 (URotr 14) (EV 20));
    Set_ 6 (E2 BSub (EV 6) (EV 5));
    Set_ 20 (E2 BXor (EV 7) (EV 4));
    Set_ 7 (E1 (URotr 27) (EV 20));
    Set_ 4 (E2 BSub (EV 4) (EV 7));
    Set_ 20 (E2 BXor (EV 1) (EV 2));
    Set_ 1 (E1 (URotr 33) (EV 20));
    Set_ 2 (E2 BSub (EV 2) (EV 1));
    Set_ 20 (E2 BXor (EV 7) (EV 6));
    Set_ 7 (E1 (URotr 37) (EV 20));
    Set_ 6 (E2 BSub (EV 6) (E2 BAdd (E2 BAdd (EV 7) (EV 12)) (EV 19)));
    Set_ 7 (E2 BSub (EV 7) (E2 BAdd (EV 13) (EC 16)));
    Set_ 20 (E2 BXor (EV 5) (EV 4));
    Set_ 5 (E1 (URotr 19) (EV 20));
    Set_ 4 (E2 BSub (EV 4) (E2 BAdd (EV 5) (EV 10)));
    Set_ 5 (E2 BSub (EV 5) (E2 BAdd (EV 11) (EV 18)));
    Set_ 20 (E2 BXor (EV 3) (EV 2));
    Set_ 3 (E1 (URotr 36) (EV 20));
    Set_ 2 (E2 BSub (EV 2) (E2 BAdd (EV 3) (EV 8)));
    Set_ 3 (E2 BSub (EV 3) (EV 9));
    Set_ 20 (E2 BXor (EV 1) (EV 0));
    Set_ 1 (E1 (URotr 46) (EV 20));
    Set_ 0 (E2 BSub (EV 0) (E2 BAdd (EV 1) (EV 15)));
    Set_ 1 (E2 BSub (EV 1) (EV 16))];
   [Set_ 20 (E2 BXor (EV 3) (EV 4));
    Set_ 3 (E1 (URotr 22) (EV 20));
    Set_ 4 (E2 BSub (EV 4) (EV 3));
    Set_ 20 (E2 BXor (EV 5) (EV 2));
    Set_ 5 (E1 (URotr 56) (EV 20));
    Set_ 2 (E2 BSub (EV 2) (EV 5));
    Set_ 20 (E2 BXor (EV 7) (EV 0));
    Set_ 7 (E1 (URotr 35) (EV 20));
    Set_ 0 (E2 BSub (EV 0) (EV 7));
    Set_ 20 (E2 BXor (EV 1) (EV 6));
    Set_ 1 (E1 (URotr 8) (EV 20));
    Set_ 6 (E2 BSub (EV 6) (EV 1));
    Set_ 20 (E2 BXor (EV 7) (EV 2));
    Set_ 7 (E1 (URotr 43) (EV 20));
    Set_ 2 (E2 BSub (EV 2) (EV 7));
    Set_ 20 (E2 BXor (EV 5) (EV 0));
    Set_ 5 (E1 (URotr 39) (EV 20));
    Set_ 0 (E2 BSub (EV 0) (EV 5));
    Set_ 20 (E2 BXor (EV 3) (EV 6));
    Set_ 3 (E1 (URotr 29) (EV 20));
    Set_ 6 (E2 BSub (EV 6) (EV 3));
    Set_ 20 (E2 BXor (EV 1) (EV 4));
    Set_ 1 (E1 (URotr 25) (EV 20));
    Set_ 4 (E2 BSub (EV 4) (EV 1));
    Set_ 20 (E2 BXor (EV 3) (EV 0));
    Set_ 3 (E1 (URotr 17) (EV 20));
    Set_ 0 (E2 BSub (EV 0) (EV 3));
    Set_ 20 (E2 BXor (EV 5) (EV 6));
    Set_ 5 (E1 (URotr 10) (EV 20));
    Set_ 6 (E2 BSub (EV 6) (EV 5));
    Set_ 20 (E2 BXor (EV 7) (EV 4));
    Set_ 7 (E1 (URotr 50) (EV 20));
    Set_ 4 (E2 BSub (EV 4) (EV 7));
    Set_ 20 (E2 BXor (EV 1) (EV 2));
    Set_ 1 (E1 (URotr 13) (EV 20));
    Set_ 2 (E2 BSub (EV 2) (EV 1));
    Set_ 20 (E2 BXor (EV 7) (EV 6));
    Set_ 7 (E1 (URotr 24) (EV 20));
    Set_ 6 (E2 BSub (EV 6) (E2 BAdd (E2 BAdd (EV 7) (EV 11)) (EV 18)));
    Set_ 7 (E2 BSub (EV 7) (E2 BAdd (EV 12) (EC 15)));
    Set_ 20 (E2 BXor (EV 5) (EV 4));
    Set_ 5 (E1 (URotr 34) (EV 20));
    Set_ 4 (E2 BSub (EV 4) (E2 BAdd (EV 5) (EV 9)));
    Set_ 5 (E2 BSub (EV 5) (E2 BAdd (EV 10) (EV 17)));
    Set_ 20 (E2 BXor (EV 3) (EV 2));
    Set_ 3 (E1 (URotr 30) (EV 20));
    Set_ 2 (E2 BSub (EV 2) (E2 BAdd (EV 3) (EV 16)));
    Set_ 3 (E2 BSub (EV 3) (EV 8));
    Set_ 20 (E2 BXor (EV 1) (EV 0));
    Set_ 1 (E1 (URotr 39) (EV 20));
    Set_ 0 (E2 BSub (EV 0) (E2 BAdd (EV 1) (EV 14)));
    Set_ 1 (E2 BSub (EV 1) (EV 15))];
   [Set_ 20 (E2 BXor (EV 3) (EV 4));
    Set_ 3 (E1 (URotr 56) (EV 20));
    Set_ 4 (E2 BSub (EV 4) (EV 3));
    Set_ 20 (E2 BXor (EV 5) (EV 2));
    Set_ 5 (E1 (URotr 54) (EV 20));
    Set_ 2 (E2 BSub (EV 2) (EV 5));
    Set_ 20 (E2 BXor (EV 7) (EV 0));
    Set_ 7 (E1 (URotr 9) (EV 20));
    Set_ 0 (E2 BSub (EV 0) (EV 7));
    Set_ 20 (E2 BXor (EV 1) (EV 6));
    Set_ 1 (E1 (URotr 44) (EV 20));
    Set_ 6 (E2 BSub (EV 6) (EV 1));
    Set_ 20 (E2 BXor (EV 7) (EV 2));
    Set_ 7 (E1 (URotr 39) (EV 20));
    Set_ 2 (E2 BSub (EV 2) (EV 7));
    Set_ 20 (E2 BXor (EV 5) (EV 0));
    Set_ 5 (E1 (URotr 36) (EV 20));
    Set_ 0 (E2 BSub (EV 0) (EV 5));
    Set_ 20 (E2 BXor (EV 3) (EV 6));
    Set_ 3 (E1 (URotr 49) (EV 20));
    Set_ 6 (E2 BSub (EV 6) (EV 3));
    Set_ 20 (E2 BXor (EV 1) (EV 4));
    Set_ 1 (E1 (URotr 17) (EV 20));
    Set_ 4 (E2 BSub (EV 4) (EV 1));
    Set_ 20 (E2 BXor (EV 3) (EV 0));
    Set_ 3 (E1 (URotr 42) (EV 20));
    Set_ 0 (E2 BSub (EV 0) (EV 3));
    Set_ 20 (E2 BXor (EV 5) (EV 6));
    Set_ 5 (E1 (URotr 14) (EV 20));
    Set_ 6 (E2 BSub (EV 6) (EV 5));
    Set_ 20 (E2 BXor (EV 7) (EV 4));
    Set_ 7 (E1 (URotr 27) (EV 20));
    Set_ 4 (E2 BSub (EV 4) (EV 7));
    Set_ 20 (E2 BXor (EV 1) (EV 2));
    Set_ 1 (E1 (URotr 33) (EV 20));
    Set_ 2 (E2 BSub (EV 2) (EV 1));
    Set_ 20 (E2 BXor (EV 7) (EV 6));
    Set_ 7 (E1 (URotr 37) (EV 20));
    Set_ 6 (E2 BSub (EV 6) (E2 BAdd (E2 BAdd (EV 7) (EV 10)) (EV 17)));
    Set_ 7 (E2 BSub (EV 7) (E2 BAdd (EV 11) (EC 14)));
    Set_ 20 (E2 BXor (EV 5) (EV 4));
    Set_ 5 (E1 (URotr 19) (EV 20));
    Set_ 4 (E2 BSub (EV 4) (E2 BAdd (EV 5) (EV 8)));
    Set_ 5 (E2 BSub (EV 5) (E2 BAdd (EV 9) (EV 19)));
    Set_ 20 (E2 BXor (EV 3) (EV 2));
    Set_ 3 (E1 (URotr 36) (EV 20));
    Set_ 2 (E2 BSub (EV 2) (E2 BAdd (EV 3) (EV 15)));
    Set_ 3 (E2 BSub (EV 3) (EV 16));
    Set_ 20 (E2 BXor (EV 1) (EV 0));
    Set_ 1 (E1 (URotr 46) (EV 20));
    Set_ 0 (E2 BSub (EV 0) (E2 BAdd (EV 1) (EV 13)));
    Set_ 1 (E2 BSub (EV 1) (EV 14))];
   [Set_ 20 (E2 BXor (EV 3) (EV 4));
    Set_ 3 (E1 (URotr 22) (EV 20));
    Set_ 4 (E2 BSub (EV 4) (EV 3));
    Set_ 20 (E2 BXor (EV 5) (EV 2));
    Set_ 5 (E1 (URotr 56) (EV 20));
    Set_ 2 (E2 BSub (EV 2) (EV 5));
    Set_ 20 (E2 BXor (EV 7) (EV 0));
    Set_ 7 (E1 (URotr 35) (EV 20));
    Set_ 0 (E2 BSub (EV 0) (EV 7));
    Set_ 20 (E2 BXor (EV 1) (EV 6));
    Set_ 1 (E1 (URotr 8) (EV 20));
    Set_ 6 (E2 BSub (EV 6) (EV 1));
    Set_ 20 (E2 BXor (EV 7) (EV 2));
    Set_ 7 (E1 (URotr 43) (EV 20));
    Set_ 2 (E2 BSub (EV 2) (EV 7));
    Set_ 20 (E2 BXor (EV 5) (EV 0));
    Set_ 5 (E1 (URotr 39) (EV 20));
    Set_ 0 (E2 BSub (EV 0) (EV 5));
    Set_ 20 (E2 BXor (EV 3) (EV 6));
    Set_ 3 (E1 (URotr 29) (EV 20));
    Set_ 6 (E2 BSub (EV 6) (EV 3));
    Set_ 20 (E2 BXor (EV 1) (EV 4));
    Set_ 1 (E1 (URotr 25) (EV 20));
    Set_ 4 (E2 BSub (EV 4) (EV 1));
    Set_ 20 (E2 BXor (EV 3) (EV 0));
    Set_ 3 (E1 (URotr 17) (EV 20));
    Set_ 0 (E2 BSub (EV 0) (EV 3));
    Set_ 20 (E2 BXor (EV 5) (EV 6));
    Set_ 5 (E1 (URotr 10) (EV 20));
    Set_ 6 (E2 BSub (EV 6) (EV 5));
    Set_ 20 (E2 BXor (EV 7) (EV 4));
    Set_ 7 (E1 (URotr 50) (EV 20));
    Set_ 4 (E2 BSub (EV 4) (EV 7));
    Set_ 20 (E2 BXor (EV 1) (EV 2));
    Set_ 1 (E1 (URotr 13) (EV 20));
    Set_ 2 (E2 BSub (EV 2) (EV 1));
    Set_ 20 (E2 BXor (EV 7) (EV 6));
    Set_ 7 (E1 (URotr 24) (EV 20));
    Set_ 6 (E2 BSub (EV 6) (E2 BAdd (E2 BAdd (EV 7) (EV 9)) (EV 19)));
    Set_ 7 (E2 BSub (EV 7) (E2 BAdd (EV 10) (EC 13)));
    Set_ 20 (E2 BXor (EV 5) (EV 4));
    Set_ 5 (E1 (URotr 34) (EV 20));
    Set_ 4 (E2 BSub (EV 4) (E2 BAdd (EV 5) (EV 16)));
    Set_ 5 (E2 BSub (EV 5) (E2 BAdd (EV 8) (EV 18)));
    Set_ 20 (E2 BXor (EV 3) (EV 2));
    Set_ 3 (E1 (URotr 30) (EV 20));
    Set_ 2 (E2 BSub (EV 2) (E2 BAdd (EV 3) (EV 14)));
    Set_ 3 (E2 BSub (EV 3) (EV 15));
    Set_ 20 (E2 BXor (EV 1) (EV 0));
    Set_ 1 (E1 (URotr 39) (EV 20));
    Set_ 0 (E2 BSub (EV 0) (E2 BAdd (EV 1) (EV 12)));
    Set_ 1 (E2 BSub (EV 1) (EV 13))];
   [Set_ 20 (E2 BXor (EV 3) (EV 4));
    Set_ 3 (E1 (URotr 56) (EV 20));
    Set_ 4 (E2 BSub (EV 4) (EV 3));
    Set_ 20 (E2 BXor (EV 5) (EV 2));
    Set_ 5 (E1 (URotr 54) (EV 20));
    Set_ 2 (E2 BSub (EV 2) (EV 5));
    Set_ 20 (E2 BXor (EV 7) (EV 0));
    Set_ 7 (E1 (URotr 9) (EV 20));
    Set_ 0 (E2 BSub (EV 0) (EV 7));
    Set_ 20 (E2 BXor (EV 1) (EV 6));
    Set_ 1 (E1 (URotr 44) (EV 20));
    Set_ 6 (E2 BSub (EV 6) (EV 1));
    Set_ 20 (E2 BXor (EV 7) (EV 2));
    Set_ 7 (E1 (URotr 39) (EV 20));
    Set_ 2 (E2 BSub (EV 2) (EV 7));
    Set_ 20 (E2 BXor (EV 5) (EV 0));
    Set_ 5 (E1 (URotr 36) (EV 20));
    Set_ 0 (E2 BSub (EV 0) (EV 5));
    Set_ 20 (E2 BXor (EV 3) (EV 6));
    Set_ 3 (E1 (URotr 49) (EV 20));
    Set_ 6 (E2 BSub (EV 6) (EV 3));
    Set_ 20 (E2 BXor (EV 1) (EV 4));
    Set_ 1 (E1 (URotr 17) (EV 20));
    Set_ 4 (E2 BSub (EV 4) (EV 1));
    Set_ 20 (E2 BXor (EV 3) (EV 0));
    Set_ 3 (E1 (URotr 42) (EV 20));
    Set_ 0 (E2 BSub (EV 0) (EV 3));
    Set_ 20 (E2 BXor (EV 5) (EV 6));
    Set_ 5 (E1 (URotr 14) (EV 20));
    Set_ 6 (E2 BSub (EV 6) (EV 5));
    Set_ 20 (E2 BXor (EV 7) (EV 4));
    Set_ 7 (E1 (URotr 27) (EV 20));
    Set_ 4 (E2 BSub (EV 4) (EV 7));
    Set_ 20 (E2 BXor (EV 1) (EV 2));
    Set_ 1 (E1 (URotr 33) (EV 20));
    Set_ 2 (E2 BSub (EV 2) (EV 1));
    Set_ 20 (E2 BXor (EV 7) (EV 6));
    Set_ 7 (E1 (URotr 37) (EV 20));
    Set_ 6 (E2 BSub (EV 6) (E2 BAdd (E2 BAdd (EV 7) (EV 8)) (EV 18)));
    Set_ 7 (E2 BSub (EV 7) (E2 BAdd (EV 9) (EC 12)));
    Set_ 20 (E2 BXor (EV 5) (EV 4));
    Set_ 5 (E1 (URotr 19) (EV 20));
    Set_ 4 (E2 BSub (EV 4) (E2 BAdd (EV 5) (EV 15)));
    Set_ 5 (E2 BSub (EV 5) (E2 BAdd (EV 16) (EV 17)));
    Set_ 20 (E2 BXor (EV 3) (EV 2));
    Set_ 3 (E1 (URotr 36) (EV 20));
    Set_ 2 (E2 BSub (EV 2) (E2 BAdd (EV 3) (EV 13)));
    Set_ 3 (E2 BSub (EV 3) (EV 14));
    Set_ 20 (E2 BXor (EV 1) (EV 0));
    Set_ 1 (E1 (URotr 46) (EV 20));
    Set_ 0 (E2 BSub (EV 0) (E2 BAdd (EV 1) (EV 11)));
    Set_ 1 (E2 BSub (EV 1) (EV 12))];
   [Set_ 20 (E2 BXor (EV 3) (EV 4));
    Set_ 3 (E1 (URotr 22) (EV 20));
    Set_ 4 (E2 BSub (EV 4) (EV 3));
    Set_ 20 (E2 BXor (EV 5) (EV 2));
    Set_ 5 (E1 (URotr 56) (EV 20));
    Set_ 2 (E2 BSub (EV 2) (EV 5));
    Set_ 20 (E2 BXor (EV 7) (EV 0));
    Set_ 7 (E1 (URotr 35) (EV 20));
    Set_ 0 (E2 BSub (EV 0) (EV 7));
    Set_ 20 (E2 BXor (EV 1) (EV 6));
    Set_ 1 (E1 (URotr 8) (EV 20));
    Set_ 6 (E2 BSub (EV 6) (EV 1));
    Set_ 20 (E2 BXor (EV 7) (EV 2));
    Set_ 7 (E1 (URotr 43) (EV 20));
    Set_ 2 (E2 BSub (EV 2) (EV 7));
    Set_ 20 (E2 BXor (EV 5) (EV 0));
    Set_ 5 (E1 (URotr 39) (EV 20));
    Set_ 0 (E2 BSub (EV 0) (EV 5));
    Set_ 20 (E2 BXor (EV 3) (EV 6));
    Set_ 3 (E1 (URotr 29) (EV 20));
    Set_ 6 (E2 BSub (EV 6) (EV 3));
    Set_ 20 (E2 BXor (EV 1) (EV 4));
    Set_ 1 (E1 (URotr 25) (EV 20));
    Set_ 4 (E2 BSub (EV 4) (EV 1));
    Set_ 20 (E2 BXor (EV 3) (EV 0));
    Set_ 3 (E1 (URotr 17) (EV 20));
    Set_ 0 (E2 BSub (EV 0) (EV 3));
    Set_ 20 (E2 BXor (EV 5) (EV 6));
    Set_ 5 (E1 (URotr 10) (EV 20));
    Set_ 6 (E2 BSub (EV 6) (EV 5));
    Set_ 20 (E2 BXor (EV 7) (EV 4));
    Set_ 7 (E1 (URotr 50) (EV 20));
    Set_ 4 (E2 BSub (EV 4) (EV 7));
    Set_ 20 (E2 BXor (EV 1) (EV 2));
    Set_ 1 (E1 (URotr 13) (EV 20));
    Set_ 2 (E2 BSub (EV 2) (EV 1));
    Set_ 20 (E2 BXor (EV 7) (EV 6));
    Set_ 7 (E1 (URotr 24) (EV 20));
    Set_ 6 (E2 BSub (EV 6) (E2 BAdd (E2 BAdd (EV 7) (EV 16)) (EV 17)));
    Set_ 7 (E2 BSub (EV 7) (E2 BAdd (EV 8) (EC 11)));
    Set_ 20 (E2 BXor (EV 5) (EV 4));
    Set_ 5 (E1 (URotr 34) (EV 20));
    Set_ 4 (E2 BSub (EV 4) (E2 BAdd (EV 5) (EV 14)));
    Set_ 5 (E2 BSub (EV 5) (E2 BAdd (EV 15) (EV 19)));
    Set_ 20 (E2 BXor (EV 3) (EV 2));
    Set_ 3 (E1 (URotr 30) (EV 20));
    Set_ 2 (E2 BSub (EV 2) (E2 BAdd (EV 3) (EV 12)));
    Set_ 3 (E2 BSub (EV 3) (EV 13));
    Set_ 20 (E2 BXor (EV 1) (EV 0));
    Set_ 1 (E1 (URotr 39) (EV 20));
    Set_ 0 (E2 BSub (EV 0) (E2 BAdd (EV 1) (EV 10)));
    Set_ 1 (E2 BSub (EV 1) (EV 11))];
   [Set_ 20 (E2 BXor (EV 3) (EV 4));
    Set_ 3 (E1 (URotr 56) (EV 20));
    Set_ 4 (E2 BSub (EV 4) (EV 3));
    Set_ 20 (E2 BXor (EV 5) (EV 2));
    Set_ 5 (E1 (URotr 54) (EV 20));
    Set_ 2 (E2 BSub (EV 2) (EV 5));
    Set_ 20 (E2 BXor (EV 7) (EV 0));
    Set_ 7 (E1 (URotr 9) (EV 20));
    Set_ 0 (E2 BSub (EV 0) (EV 7));
    Set_ 20 (E2 BXor (EV 1) (EV 6));
    Set_ 1 (E1 (URotr 44) (EV 20));
    Set_ 6 (E2 BSub (EV 6) (EV 1));
    Set_ 20 (E2 BXor (EV 7) (EV 2));
    Set_ 7 (E1 (URotr 39) (EV 20));
    Set_ 2 (E2 BSub (EV 2) (EV 7));
    Set_ 20 (E2 BXor (EV 5) (EV 0));
    Set_ 5 (E1 (URotr 36) (EV 20));
    Set_ 0 (E2 BSub (EV 0) (EV 5));
    Set_ 20 (E2 BXor (EV 3) (EV 6));
    Set_ 3 (E1 (URotr 49) (EV 20));
    Set_ 6 (E2 BSub (EV 6) (EV 3));
    Set_ 20 (E2 BXor (EV 1) (EV 4));
    Set_ 1 (E1 (URotr 17) (EV 20));
    Set_ 4 (E2 BSub (EV 4) (EV 1));
    Set_ 20 (E2 BXor (EV 3) (EV 0));
    Set_ 3 (E1 (URotr 42) (EV 20));
    Set_ 0 (E2 BSub (EV 0) (EV 3));
    Set_ 20 (E2 BXor (EV 5) (EV 6));
    Set_ 5 (E1 (URotr 14) (EV 20));
    Set_ 6 (E2 BSub (EV 6) (EV 5));
    Set_ 20 (E2 BXor (EV 7) (EV 4));
    Set_ 7 (E1 (URotr 27) (EV 20));
    Set_ 4 (E2 BSub (EV 4) (EV 7));
    Set_ 20 (E2 BXor (EV 1) (EV 2));
    Set_ 1 (E1 (URotr 33) (EV 20));
    Set_ 2 (E2 BSub (EV 2) (EV 1));
    Set_ 20 (E2 BXor (EV 7) (EV 6));
    Set_ 7 (E1 (URotr 37) (EV 20));
    Set_ 6 (E2 BSub (EV 6) (E2 BAdd (E2 BAdd (EV 7) (EV 15)) (EV 19)));
    Set_ 7 (E2 BSub (EV 7) (E2 BAdd (EV 16) (EC 10)));
    Set_ 20 (E2 BXor (EV 5) (EV 4));
    Set_ 5 (E1 (URotr 19) (EV 20));
    Set_ 4 (E2 BSub (EV 4) (E2 BAdd (EV 5) (EV 13)));
    Set_ 5 (E2 BSub (EV 5) (E2 BAdd (EV 14) (EV 18)));
    Set_ 20 (E2 BXor (EV 3) (EV 2));
    Set_ 3 (E1 (URotr 36) (EV 20));
    Set_ 2 (E2 BSub (EV 2) (E2 BAdd (EV 3) (EV 11)));
    Set_ 3 (E2 BSub (EV 3) (EV 12));
    Set_ 20 (E2 BXor (EV 1) (EV 0));
    Set_ 1 (E1 (URotr 46) (EV 20));
    Set_ 0 (E2 BSub (EV 0) (E2 BAdd (EV 1) (EV 9)));
    Set_ 1 (E2 BSub (EV 1) (EV 10))];
   [Set_ 20 (E2 BXor (EV 3) (EV 4));
    Set_ 3 (E1 (URotr 22) (EV 20));
    Set_ 4 (E2 BSub (EV 4) (EV 3));
    Set_ 20 (E2 BXor (EV 5) (EV 2));
    Set_ 5 (E1 (URotr 56) (EV 20));
    Set_ 2 (E2 BSub (EV 2) (EV 5));
    Set_ 20 (E2 BXor (EV 7) (EV 0));
    Set_ 7 (E1 (URotr 35) (EV 20));
    Set_ 0 (E2 BSub (EV 0) (EV 7));
    Set_ 20 (E2 BXor (EV 1) (EV 6));
    Set_ 1 (E1 (URotr 8) (EV 20));
    Set_ 6 (E2 BSub (EV 6) (EV 1));
    Set_ 20 (E2 BXor (EV 7) (EV 2));
    Set_ 7 (E1 (URotr 43) (EV 20));
    Set_ 2 (E2 BSub (EV 2) (EV 7));
    Set_ 20 (E2 BXor (EV 5) (EV 0));
    Set_ 5 (E1 (URotr 39) (EV 20));
    Set_ 0 (E2 BSub (EV 0) (EV 5));
    Set_ 20 (E2 BXor (EV 3) (EV 6));
    Set_ 3 (E1 (URotr 29) (EV 20));
    Set_ 6 (E2 BSub (EV 6) (EV 3));
    Set_ 20 (E2 BXor (EV 1) (EV 4));
    Set_ 1 (E1 (URotr 25) (EV 20));
    Set_ 4 (E2 BSub (EV 4) (EV 1));
    Set_ 20 (E2 BXor (EV 3) (EV 0));
    Set_ 3 (E1 (URotr 17) (EV 20));
    Set_ 0 (E2 BSub (EV 0) (EV 3));
    Set_ 20 (E2 BXor (EV 5) (EV 6));
    Set_ 5 (E1 (URotr 10) (EV 20));
    Set_ 6 (E2 BSub (EV 6) (EV 5));
    Set_ 20 (E2 BXor (EV 7) (EV 4));
    Set_ 7 (E1 (URotr 50) (EV 20));
    Set_ 4 (E2 BSub (EV 4) (EV 7));
    Set_ 20 (E2 BXor (EV 1) (EV 2));
    Set_ 1 (E1 (URotr 13) (EV 20));
    Set_ 2 (E2 BSub (EV 2) (EV 1));
    Set_ 20 (E2 BXor (EV 7) (EV 6));
    Set_ 7 (E1 (URotr 24) (EV 20));
    Set_ 6 (E2 BSub (EV 6) (E2 BAdd (E2 BAdd (EV 7) (EV 14)) (EV 18)));
    Set_ 7 (E2 BSub (EV 7) (E2 BAdd (EV 15) (EC 9)));
    Set_ 20 (E2 BXor (EV 5) (EV 4));
    Set_ 5 (E1 (URotr 34) (EV 20));
    Set_ 4 (E2 BSub (EV 4) (E2 BAdd (EV 5) (EV 12)));
    Set_ 5 (E2 BSub (EV 5) (E2 BAdd (EV 13) (EV 17)));
    Set_ 20 (E2 BXor (EV 3) (EV 2));
    Set_ 3 (E1 (URotr 30) (EV 20));
    Set_ 2 (E2 BSub (EV 2) (E2 BAdd (EV 3) (EV 10)));
    Set_ 3 (E2 BSub (EV 3) (EV 11));
    Set_ 20 (E2 BXor (EV 1) (EV 0));
    Set_ 1 (E1 (URotr 39) (EV 20));
    Set_ 0 (E2 BSub (EV 0) (E2 BAdd (EV 1) (EV 8)));
    Set_ 1 (E2 BSub (EV 1) (EV 9))];
   [Set_ 20 (E2 BXor (EV 3) (EV 4));
    Set_ 3 (E1 (URotr 56) (EV 20));
    Set_ 4 (E2 BSub (EV 4) (EV 3));
    Set_ 20 (E2 BXor (EV 5) (EV 2));
    Set_ 5 (E1 (URotr 54) (EV 20));
    Set_ 2 (E2 BSub (EV 2) (EV 5));
    Set_ 20 (E2 BXor (EV 7) (EV 0));
    Set_ 7 (E1 (URotr 9) (EV 20));
    Set_ 0 (E2 BSub (EV 0) (EV 7));
    Set_ 20 (E2 BXor (EV 1) (EV 6));
    Set_ 1 (E1 (URotr 44) (EV 20));
    Set_ 6 (E2 BSub (EV 6) (EV 1));
    Set_ 20 (E2 BXor (EV 7) (EV 2));
    Set_ 7 (E1 (URotr 39) (EV 20));
    Set_ 2 (E2 BSub (EV 2) (EV 7));
    Set_ 20 (E2 BXor (EV 5) (EV 0));
    Set_ 5 (E1 (URotr 36) (EV 20));
    Set_ 0 (E2 BSub (EV 0) (EV 5));
    Set_ 20 (E2 BXor (EV 3) (EV 6));
    Set_ 3 (E1 (URotr 49) (EV 20));
    Set_ 6 (E2 BSub (EV 6) (EV 3));
    Set_ 20 (E2 BXor (EV 1) (EV 4));
    Set_ 1 (E1 (URotr 17) (EV 20));
    Set_ 4 (E2 BSub (EV 4) (EV 1));
    Set_ 20 (E2 BXor (EV 3) (EV 0));
    Set_ 3 (E1 (URotr 42) (EV 20));
    Set_ 0 (E2 BSub (EV 0) (EV 3));
    Set_ 20 (E2 BXor (EV 5) (EV 6));
    Set_ 5 (E1 (URotr 14) (EV 20));
    Set_ 6 (E2 BSub (EV 6) (EV 5));
    Set_ 20 (E2 BXor (EV 7) (EV 4));
    Set_ 7 (E1 (URotr 27) (EV 20));
    Set_ 4 (E2 BSub (EV 4) (EV 7));
    Set_ 20 (E2 BXor (EV 1) (EV 2));
    Set_ 1 (E1 (URotr 33) (EV 20));
    Set_ 2 (E2 BSub (EV 2) (EV 1));
    Set_ 20 (E2 BXor (EV 7) (EV 6));
    Set_ 7 (E1 (URotr 37) (EV 20));
    Set_ 6 (E2 BSub (EV 6) (E2 BAdd (E2 BAdd (EV 7) (EV 13)) (EV 17)));
    Set_ 7 (E2 BSub (EV 7) (E2 BAdd (EV 14) (EC 8)));
    Set_ 20 (E2 BXor (EV 5) (EV 4));
    Set_ 5 (E1 (URotr 19) (EV 20));
    Set_ 4 (E2 BSub (EV 4) (E2 BAdd (EV 5) (EV 11)));
    Set_ 5 (E2 BSub (EV 5) (E2 BAdd (EV 12) (EV 19)));
    Set_ 20 (E2 BXor (EV 3) (EV 2));
    Set_ 3 (E1 (URotr 36) (EV 20));
    Set_ 2 (E2 BSub (EV 2) (E2 BAdd (EV 3) (EV 9)));
    Set_ 3 (E2 BSub (EV 3) (EV 10));
    Set_ 20 (E2 BXor (EV 1) (EV 0));
    Set_ 1 (E1 (URotr 46) (EV 20));
    Set_ 0 (E2 BSub (EV 0) (E2 BAdd (EV 1) (EV 16)));
    Set_ 1 (E2 BSub (EV 1) (EV 8))];
   [Set_ 20 (E2 BXor (EV 3) (EV 4));
    Set_ 3 (E1 (URotr 22) (EV 20));
    Set_ 4 (E2 BSub (EV 4) (EV 3));
    Set_ 20 (E2 BXor (EV 5) (EV 2));
    Set_ 5 (E1 (URotr 56) (EV 20));
    Set_ 2 (E2 BSub (EV 2) (EV 5));
    Set_ 20 (E2 BXor (EV 7) (EV 0));
    Set_ 7 (E1 (URotr 35) (EV 20));
    Set_ 0 (E2 BSub (EV 0) (EV 7));
    Set_ 20 (E2 BXor (EV 1) (EV 6));
    Set_ 1 (E1 (URotr 8) (EV 20));
    Set_ 6 (E2 BSub (EV 6) (EV 1));
    Set_ 20 (E2 BXor (EV 7) (EV 2));
    Set_ 7 (E1 (URotr 43) (EV 20));
    Set_ 2 (E2 BSub (EV 2) (EV 7));
    Set_ 20 (E2 BXor (EV 5) (EV 0));
    Set_ 5 (E1 (URotr 39) (EV 20));
    Set_ 0 (E2 BSub (EV 0) (EV 5));
    Set_ 20 (E2 BXor (EV 3) (EV 6));
    Set_ 3 (E1 (URotr 29) (EV 20));
    Set_ 6 (E2 BSub (EV 6) (EV 3));
    Set_ 20 (E2 BXor (EV 1) (EV 4));
    Set_ 1 (E1 (URotr 25) (EV 20));
    Set_ 4 (E2 BSub (EV 4) (EV 1));
    Set_ 20 (E2 BXor (EV 3) (EV 0));
    Set_ 3 (E1 (URotr 17) (EV 20));
    Set_ 0 (E2 BSub (EV 0) (EV 3));
    Set_ 20 (E2 BXor (EV 5) (EV 6));
    Set_ 5 (E1 (URotr 10) (EV 20));
    Set_ 6 (E2 BSub (EV 6) (EV 5));
    Set_ 20 (E2 BXor (EV 7) (EV 4));
    Set_ 7 (E1 (URotr 50) (EV 20));
    Set_ 4 (E2 BSub (EV 4) (EV 7));
    Set_ 20 (E2 BXor (EV 1) (EV 2));
    Set_ 1 (E1 (URotr 13) (EV 20));
    Set_ 2 (E2 BSub (EV 2) (EV 1));
    Set_ 20 (E2 BXor (EV 7) (EV 6));
    Set_ 7 (E1 (URotr 24) (EV 20));
    Set_ 6 (E2 BSub (EV 6) (E2 BAdd (E2 BAdd (EV 7) (EV 12)) (EV 19)));
    Set_ 7 (E2 BSub (EV 7) (E2 BAdd (EV 13) (EC 7)));
    Set_ 20 (E2 BXor (EV 5) (EV 4));
    Set_ 5 (E1 (URotr 34) (EV 20));
    Set_ 4 (E2 BSub (EV 4) (E2 BAdd (EV 5) (EV 10)));
    Set_ 5 (E2 BSub (EV 5) (E2 BAdd (EV 11) (EV 18)));
    Set_ 20 (E2 BXor (EV 3) (EV 2));
    Set_ 3 (E1 (URotr 30) (EV 20));
    Set_ 2 (E2 BSub (EV 2) (E2 BAdd (EV 3) (EV 8)));
    Set_ 3 (E2 BSub (EV 3) (EV 9));
    Set_ 20 (E2 BXor (EV 1) (EV 0));
    Set_ 1 (E1 (URotr 39) (EV 20));
    Set_ 0 (E2 BSub (EV 0) (E2 BAdd (EV 1) (EV 15)));
    Set_ 1 (E2 BSub (EV 1) (EV 16))];
   [Set_ 20 (E2 BXor (EV 3) (EV 4));
    Set_ 3 (E1 (URotr 56) (EV 20));
    Set_ 4 (E2 BSub (EV 4) (EV 3));
    Set_ 20 (E2 BXor (EV 5) (EV 2));
    Set_ 5 (E1 (URotr 54) (EV 20));
    Set_ 2 (E2 BSub (EV 2) (EV 5));
    Set_ 20 (E2 BXor (EV 7) (EV 0));
    Set_ 7 (E1 (URotr 9) (EV 20));
    Set_ 0 (E2 BSub (EV 0) (EV 7));
    Set_ 20 (E2 BXor (EV 1) (EV 6));
    Set_ 1 (E1 (URotr 44) (EV 20));
    Set_ 6 (E2 BSub (EV 6) (EV 1));
    Set_ 20 (E2 BXor (EV 7) (EV 2));
    Set_ 7 (E1 (URotr 39) (EV 20));
    Set_ 2 (E2 BSub (EV 2) (EV 7));
    Set_ 20 (E2 BXor (EV 5) (EV 0));
    Set_ 5 (E1 (URotr 36) (EV 20));
    Set_ 0 (E2 BSub (EV 0) (EV 5));
    Set_ 20 (E2 BXor (EV 3) (EV 6));
    Set_ 3 (E1 (URotr 49) (EV 20));
    Set_ 6 (E2 BSub (EV 6) (EV 3));
    Set_ 20 (E2 BXor (EV 1) (EV 4));
    Set_ 1 (E1 (URotr 17) (EV 20));
    Set_ 4 (E2 BSub (EV 4) (EV 1));
    Set_ 20 (E2 BXor (EV 3) (EV 0));
    Set_ 3 (E1 (URotr 42) (EV 20));
    Set_ 0 (E2 BSub (EV 0) (EV 3));
    Set_ 20 (E2 BXor (EV 5) (EV 6));
    Set_ 5 (E1 (URotr 14) (EV 20));
    Set_ 6 (E2 BSub (EV 6) (EV 5));
    Set_ 20 (E2 BXor (EV 7) (EV 4));
    Set_ 7 (E1 (URotr 27) (EV 20));
    Set_ 4 (E2 BSub (EV 4) (EV 7));
    Set_ 20 (E2 BXor (EV 1) (EV 2));
    Set_ 1 (E1 (URotr 33) (EV 20));
    Set_ 2 (E2 BSub (EV 2) (EV 1));
    Set_ 20 (E2 BXor (EV 7) (EV 6));
    Set_ 7 (E1 (URotr 37) (EV 20));
    Set_ 6 (E2 BSub (EV 6) (E2 BAdd (E2 BAdd (EV 7) (EV 11)) (EV 18)));
    Set_ 7 (E2 BSub (EV 7) (E2 BAdd (EV 12) (EC 6)));
    Set_ 20 (E2 BXor (EV 5) (EV 4));
    Set_ 5 (E1 (URotr 19) (EV 20));
    Set_ 4 (E2 BSub (EV 4) (E2 BAdd (EV 5) (EV 9)));
    Set_ 5 (E2 BSub (EV 5) (E2 BAdd (EV 10) (EV 17)));
    Set_ 20 (E2 BXor (EV 3) (EV 2));
    Set_ 3 (E1 (URotr 36) (EV 20));
    Set_ 2 (E2 BSub (EV 2) (E2 BAdd (EV 3) (EV 16)));
    Set_ 3 (E2 BSub (EV 3) (EV 8));
    Set_ 20 (E2 BXor (EV 1) (EV 0));
    Set_ 1 (E1 (URotr 46) (EV 20));
    Set_ 0 (E2 BSub (EV 0) (E2 BAdd (EV 1) (EV 14)));
    Set_ 1 (E2 BSub (EV 1) (EV 15))];
   [Set_ 20 (E2 BXor (EV 3) (EV 4));
    Set_ 3 (E1 (URotr 22) (EV 20));
    Set_ 4 (E2 BSub (EV 4) (EV 3));
    Set_ 20 (E2 BXor (EV 5) (EV 2));
    Set_ 5 (E1 (URotr 56) (EV 20));
    Set_ 2 (E2 BSub (EV 2) (EV 5));
    Set_ 20 (E2 BXor (EV 7) (EV 0));
    Set_ 7 (E1 (URotr 35) (EV 20));
    Set_ 0 (E2 BSub (EV 0) (EV 7));
    Set_ 20 (E2 BXor (EV 1) (EV 6));
    Set_ 1 (E1 (URotr 8) (EV 20));
    Set_ 6 (E2 BSub (EV 6) (EV 1));
    Set_ 20 (E2 BXor (EV 7) (EV 2));
    Set_ 7 (E1 (URotr 43) (EV 20));
    Set_ 2 (E2 BSub (EV 2) (EV 7));
    Set_ 20 (E2 BXor (EV 5) (EV 0));
    Set_ 5 (E1 (URotr 39) (EV 20));
    Set_ 0 (E2 BSub (EV 0) (EV 5));
    Set_ 20 (E2 BXor (EV 3) (EV 6));
    Set_ 3 (E1 (URotr 29) (EV 20));
    Set_ 6 (E2 BSub (EV 6) (EV 3));
    Set_ 20 (E2 BXor (EV 1) (EV 4));
    Set_ 1 (E1 (URotr 25) (EV 20));
    Set_ 4 (E2 BSub (EV 4) (EV 1));
    Set_ 20 (E2 BXor (EV 3) (EV 0));
    Set_ 3 (E1 (URotr 17) (EV 20));
    Set_ 0 (E2 BSub (EV 0) (EV 3));
    Set_ 20 (E2 BXor (EV 5) (EV 6));
    Set_ 5 (E1 (URotr 10) (EV 20));
    Set_ 6 (E2 BSub (EV 6) (EV 5));
    Set_ 20 (E2 BXor (EV 7) (EV 4));
    Set_ 7 (E1 (URotr 50) (EV 20));
    Set_ 4 (E2 BSub (EV 4) (EV 7));
    Set_ 20 (E2 BXor (EV 1) (EV 2));
    Set_ 1 (E1 (URotr 13) (EV 20));
    Set_ 2 (E2 BSub (EV 2) (EV 1));
    Set_ 20 (E2 BXor (EV 7) (EV 6));
    Set_ 7 (E1 (URotr 24) (EV 20));
    Set_ 6 (E2 BSub (EV 6) (E2 BAdd (E2 BAdd (EV 7) (EV 10)) (EV 17)));
    Set_ 7 (E2 BSub (EV 7) (E2 BAdd (EV 11) (EC 5)));
    Set_ 20 (E2 BXor (EV 5) (EV 4));
    Set_ 5 (E1 (URotr 34) (EV 20));
    Set_ 4 (E2 BSub (EV 4) (E2 BAdd (EV 5) (EV 8)));
    Set_ 5 (E2 BSub (EV 5) (E2 BAdd (EV 9) (EV 19)));
    Set_ 20 (E2 BXor (EV 3) (EV 2));
    Set_ 3 (E1 (URotr 30) (EV 20));
    Set_ 2 (E2 BSub (EV 2) (E2 BAdd (EV 3) (EV 15)));
    Set_ 3 (E2 BSub (EV 3) (EV 16));
    Set_ 20 (E2 BXor (EV 1) (EV 0));
    Set_ 1 (E1 (URotr 39) (EV 20));
    Set_ 0 (E2 BSub (EV 0) (E2 BAdd (EV 1) (EV 13)));
    Set_ 1 (E2 BSub (EV 1) (EV 14))];
   [Set_ 20 (E2 BXor (EV 3) (EV 4));
    Set_ 3 (E1 (URotr 56) (EV 20));
    Set_ 4 (E2 BSub (EV 4) (EV 3));
    Set_ 20 (E2 BXor (EV 5) (EV 2));
    Set_ 5 (E1 (URotr 54) (EV 20));
    Set_ 2 (E2 BSub (EV 2) (EV 5));
    Set_ 20 (E2 BXor (EV 7) (EV 0));
    Set_ 7 (E1 (URotr 9) (EV 20));
    Set_ 0 (E2 BSub (EV 0) (EV 7));
    Set_ 20 (E2 BXor (EV 1) (EV 6));
    Set_ 1 (E1 (URotr 44) (EV 20));
    Set_ 6 (E2 BSub (EV 6) (EV 1));
    Set_ 20 (E2 BXor (EV 7) (EV 2));
    Set_ 7 (E1 (URotr 39) (EV 20));
    Set_ 2 (E2 BSub (EV 2) (EV 7));
    Set_ 20 (E2 BXor (EV 5) (EV 0));
    Set_ 5 (E1 (URotr 36) (EV 20));
    Set_ 0 (E2 BSub (EV 0) (EV 5));
    Set_ 20 (E2 BXor (EV 3) (EV 6));
    Set_ 3 (E1 (URotr 49) (EV 20));
    Set_ 6 (E2 BSub (EV 6) (EV 3));
    Set_ 20 (E2 BXor (EV 1) (EV 4));
    Set_ 1 (E1 (URotr 17) (EV 20));
    Set_ 4 (E2 BSub (EV 4) (EV 1));
    Set_ 20 (E2 BXor (EV 3) (EV 0));
    Set_ 3 (E1 (URotr 42) (EV 20));
    Set_ 0 (E2 BSub (EV 0) (EV 3));
    Set_ 20 (E2 BXor (EV 5) (EV 6));
    Set_ 5 (E1 (URotr 14) (EV 20));
    Set_ 6 (E2 BSub (EV 6) (EV 5));
    Set_ 20 (E2 BXor (EV 7) (EV 4));
    Set_ 7 (E1 (URotr 27) (EV 20));
    Set_ 4 (E2 BSub (EV 4) (EV 7));
    Set_ 20 (E2 BXor (EV 1) (EV 2));
    Set_ 1 (E1 (URotr 33) (EV 20));
    Set_ 2 (E2 BSub (EV 2) (EV 1));
    Set_ 20 (E2 BXor (EV 7) (EV 6));
    Set_ 7 (E1 (URotr 37) (EV 20));
    Set_ 6 (E2 BSub (EV 6) (E2 BAdd (E2 BAdd (EV 7) (EV 9)) (EV 19)));
    Set_ 7 (E2 BSub (EV 7) (E2 BAdd (EV 10) (EC 4)));
    Set_ 20 (E2 BXor (EV 5) (EV 4));
    Set_ 5 (E1 (URotr 19) (EV 20));
    Set_ 4 (E2 BSub (EV 4) (E2 BAdd (EV 5) (EV 16)));
    Set_ 5 (E2 BSub (EV 5) (E2 BAdd (EV 8) (EV 18)));
    Set_ 20 (E2 BXor (EV 3) (EV 2));
    Set_ 3 (E1 (URotr 36) (EV 20));
    Set_ 2 (E2 BSub (EV 2) (E2 BAdd (EV 3) (EV 14)));
    Set_ 3 (E2 BSub (EV 3) (EV 15));
    Set_ 20 (E2 BXor (EV 1) (EV 0));
    Set_ 1 (E1 (URotr 46) (EV 20));
    Set_ 0 (E2 BSub (EV 0) (E2 BAdd (EV 1) (EV 12)));
    Set_ 1 (E2 BSub (EV 1) (EV 13))];
   [Set_ 20 (E2 BXor (EV 3) (EV 4));
    Set_ 3 (E1 (URotr 22) (EV 20));
    Set_ 4 (E2 BSub (EV 4) (EV 3));
    Set_ 20 (E2 BXor (EV 5) (EV 2));
    Set_ 5 (E1 (URotr 56) (EV 20));
    Set_ 2 (E2 BSub (EV 2) (EV 5));
    Set_ 20 (E2 BXor (EV 7) (EV 0));
    Set_ 7 (E1 (URotr 35) (EV 20));
    Set_ 0 (E2 BSub (EV 0) (EV 7));
    Set_ 20 (E2 BXor (EV 1) (EV 6));
    Set_ 1 (E1 (URotr 8) (EV 20));
    Set_ 6 (E2 BSub (EV 6) (EV 1));
    Set_ 20 (E2 BXor (EV 7) (EV 2));
    Set_ 7 (E1 (URotr 43) (EV 20));
    Set_ 2 (E2 BSub (EV 2) (EV 7));
    Set_ 20 (E2 BXor (EV 5) (EV 0));
    Set_ 5 (E1 (URotr 39) (EV 20));
    Set_ 0 (E2 BSub (EV 0) (EV 5));
    Set_ 20 (E2 BXor (EV 3) (EV 6));
    Set_ 3 (E1 (URotr 29) (EV 20));
    Set_ 6 (E2 BSub (EV 6) (EV 3));
    Set_ 20 (E2 BXor (EV 1) (EV 4));
    Set_ 1 (E1 (URotr 25) (EV 20));
    Set_ 4 (E2 BSub (EV 4) (EV 1));
    Set_ 20 (E2 BXor (EV 3) (EV 0));
    Set_ 3 (E1 (URotr 17) (EV 20));
    Set_ 0 (E2 BSub (EV 0) (EV 3));
    Set_ 20 (E2 BXor (EV 5) (EV 6));
    Set_ 5 (E1 (URotr 10) (EV 20));
    Set_ 6 (E2 BSub (EV 6) (EV 5));
    Set_ 20 (E2 BXor (EV 7) (EV 4));
    Set_ 7 (E1 (URotr 50) (EV 20));
    Set_ 4 (E2 BSub (EV 4) (EV 7));
    Set_ 20 (E2 BXor (EV 1) (EV 2));
    Set_ 1 (E1 (URotr 13) (EV 20));
    Set_ 2 (E2 BSub (EV 2) (EV 1));
    Set_ 20 (E2 BXor (EV 7) (EV 6));
    Set_ 7 (E1 (URotr 24) (EV 20));
    Set_ 6 (E2 BSub (EV 6) (E2 BAdd (E2 BAdd (EV 7) (EV 8)) (EV 18)));
    Set_ 7 (E2 BSub (EV 7) (E2 BAdd (EV 9) (EC 3)));
    Set_ 20 (E2 BXor (EV 5) (EV 4));
    Set_ 5 (E1 (URotr 34) (EV 20));
    Set_ 4 (E2 BSub (EV 4) (E2 BAdd (EV 5) (EV 15)));
    Set_ 5 (E2 BSub (EV 5) (E2 BAdd (EV 16) (EV 17)));
    Set_ 20 (E2 BXor (EV 3) (EV 2));
    Set_ 3 (E1 (URotr 30) (EV 20));
    Set_ 2 (E2 BSub (EV 2) (E2 BAdd (EV 3) (EV 13)));
    Set_ 3 (E2 BSub (EV 3) (EV 14));
    Set_ 20 (E2 BXor (EV 1) (EV 0));
    Set_ 1 (E1 (URotr 39) (EV 20));
    Set_ 0 (E2 BSub (EV 0) (E2 BAdd (EV 1) (EV 11)));
    Set_ 1 (E2 BSub (EV 1) (EV 12))];
   [Set_ 20 (E2 BXor (EV 3) (EV 4));
    Set_ 3 (E1 (URotr 56) (EV 20));
    Set_ 4 (E2 BSub (EV 4) (EV 3));
    Set_ 20 (E2 BXor (EV 5) (EV 2));
    Set_ 5 (E1 (URotr 54) (EV 20));
    Set_ 2 (E2 BSub (EV 2) (EV 5));
    Set_ 20 (E2 BXor (EV 7) (EV 0));
    Set_ 7 (E1 (URotr 9) (EV 20));
    Set_ 0 (E2 BSub (EV 0) (EV 7));
    Set_ 20 (E2 BXor (EV 1) (EV 6));
    Set_ 1 (E1 (URotr 44) (EV 20));
    Set_ 6 (E2 BSub (EV 6) (EV 1));
    Set_ 20 (E2 BXor (EV 7) (EV 2));
    Set_ 7 (E1 (URotr 39) (EV 20));
    Set_ 2 (E2 BSub (EV 2) (EV 7));
    Set_ 20 (E2 BXor (EV 5) (EV 0));
    Set_ 5 (E1 (URotr 36) (EV 20));
    Set_ 0 (E2 BSub (EV 0) (EV 5));
    Set_ 20 (E2 BXor (EV 3) (EV 6));
    Set_ 3 (E1 (URotr 49) (EV 20));
    Set_ 6 (E2 BSub (EV 6) (EV 3));
    Set_ 20 (E2 BXor (EV 1) (EV 4));
    Set_ 1 (E1 (URotr 17) (EV 20));
    Set_ 4 (E2 BSub (EV 4) (EV 1));
    Set_ 20 (E2 BXor (EV 3) (EV 0));
    Set_ 3 (E1 (URotr 42) (EV 20));
    Set_ 0 (E2 BSub (EV 0) (EV 3));
    Set_ 20 (E2 BXor (EV 5) (EV 6));
    Set_ 5 (E1 (URotr 14) (EV 20));
    Set_ 6 (E2 BSub (EV 6) (EV 5));
    Set_ 20 (E2 BXor (EV 7) (EV 4));
    Set_ 7 (E1 (URotr 27) (EV 20));
    Set_ 4 (E2 BSub (EV 4) (EV 7));
    Set_ 20 (E2 BXor (EV 1) (EV 2));
    Set_ 1 (E1 (URotr 33) (EV 20));
    Set_ 2 (E2 BSub (EV 2) (EV 1));
    Set_ 20 (E2 BXor (EV 7) (EV 6));
    Set_ 7 (E1 (URotr 37) (EV 20));
    Set_ 6 (E2 BSub (EV 6) (E2 BAdd (E2 BAdd (EV 7) (EV 16)) (EV 17)));
    Set_ 7 (E2 BSub (EV 7) (E2 BAdd (EV 8) (EC 2)));
    Set_ 20 (E2 BXor (EV 5) (EV 4));
    Set_ 5 (E1 (URotr 19) (EV 20));
    Set_ 4 (E2 BSub (EV 4) (E2 BAdd (EV 5) (EV 14)));
    Set_ 5 (E2 BSub (EV 5) (E2 BAdd (EV 15) (EV 19)));
    Set_ 20 (E2 BXor (EV 3) (EV 2));
    Set_ 3 (E1 (URotr 36) (EV 20));
    Set_ 2 (E2 BSub (EV 2) (E2 BAdd (EV 3) (EV 12)));
    Set_ 3 (E2 BSub (EV 3) (EV 13));
    Set_ 20 (E2 BXor (EV 1) (EV 0));
    Set_ 1 (E1 (URotr 46) (EV 20));
    Set_ 0 (E2 BSub (EV 0) (E2 BAdd (EV 1) (EV 10)));
    Set_ 1 (E2 BSub (EV 1) (EV 11))];
   [Set_ 20 (E2 BXor (EV 3) (EV 4));
    Set_ 3 (E1 (URotr 22) (EV 20));
    Set_ 4 (E2 BSub (EV 4) (EV 3));
    Set_ 20 (E2 BXor (EV 5) (EV 2));
    Set_ 5 (E1 (URotr 56) (EV 20));
    Set_ 2 (E2 BSub (EV 2) (EV 5));
    Set_ 20 (E2 BXor (EV 7) (EV 0));
    Set_ 7 (E1 (URotr 35) (EV 20));
    Set_ 0 (E2 BSub (EV 0) (EV 7));
    Set_ 20 (E2 BXor (EV 1) (EV 6));
    Set_ 1 (E1 (URotr 8) (EV 20));
    Set_ 6 (E2 BSub (EV 6) (EV 1));
    Set_ 20 (E2 BXor (EV 7) (EV 2));
    Set_ 7 (E1 (URotr 43) (EV 20));
    Set_ 2 (E2 BSub (EV 2) (EV 7));
    Set_ 20 (E2 BXor (EV 5) (EV 0));
    Set_ 5 (E1 (URotr 39) (EV 20));
    Set_ 0 (E2 BSub (EV 0) (EV 5));
    Set_ 20 (E2 BXor (EV 3) (EV 6));
    Set_ 3 (E1 (URotr 29) (EV 20));
    Set_ 6 (E2 BSub (EV 6) (EV 3));
    Set_ 20 (E2 BXor (EV 1) (EV 4));
    Set_ 1 (E1 (URotr 25) (EV 20));
    Set_ 4 (E2 BSub (EV 4) (EV 1));
    Set_ 20 (E2 BXor (EV 3) (EV 0));
    Set_ 3 (E1 (URotr 17) (EV 20));
    Set_ 0 (E2 BSub (EV 0) (EV 3));
    Set_ 20 (E2 BXor (EV 5) (EV 6));
    Set_ 5 (E1 (URotr 10) (EV 20));
    Set_ 6 (E2 BSub (EV 6) (EV 5));
    Set_ 20 (E2 BXor (EV 7) (EV 4));
    Set_ 7 (E1 (URotr 50) (EV 20));
    Set_ 4 (E2 BSub (EV 4) (EV 7));
    Set_ 20 (E2 BXor (EV 1) (EV 2));
    Set_ 1 (E1 (URotr 13) (EV 20));
    Set_ 2 (E2 BSub (EV 2) (EV 1));
    Set_ 20 (E2 BXor (EV 7) (EV 6));
    Set_ 7 (E1 (URotr 24) (EV 20));
    Set_ 6 (E2 BSub (EV 6) (E2 BAdd (E2 BAdd (EV 7) (EV 15)) (EV 19)));
    Set_ 7 (E2 BSub (EV 7) (E2 BAdd (EV 16) (EC 1)));
    Set_ 20 (E2 BXor (EV 5) (EV 4));
    Set_ 5 (E1 (URotr 34) (EV 20));
    Set_ 4 (E2 BSub (EV 4) (E2 BAdd (EV 5) (EV 13)));
    Set_ 5 (E2 BSub (EV 5) (E2 BAdd (EV 14) (EV 18)));
    Set_ 20 (E2 BXor (EV 3) (EV 2));
    Set_ 3 (E1 (URotr 30) (EV 20));
    Set_ 2 (E2 BSub (EV 2) (E2 BAdd (EV 3) (EV 11)));
    Set_ 3 (E2 BSub (EV 3) (EV 12));
    Set_ 20 (E2 BXor (EV 1) (EV 0));
    Set_ 1 (E1 (URotr 39) (EV 20));
    Set_ 0 (E2 BSub (EV 0) (E2 BAdd (EV 1) (EV 9)));
    Set_ 1 (E2 BSub (EV 1) (EV 10))];
   [Set_ 20 (E2 BXor (EV 3) (EV 4));
    Set_ 3 (E1 (URotr 56) (EV 20));
    Set_ 4 (E2 BSub (EV 4) (EV 3));
    Set_ 20 (E2 BXor (EV 5) (EV 2));
    Set_ 5 (E1 (URotr 54) (EV 20));
    Set_ 2 (E2 BSub (EV 2) (EV 5));
    Set_ 20 (E2 BXor (EV 7) (EV 0));
    Set_ 7 (E1 (URotr 9) (EV 20));
    Set_ 0 (E2 BSub (EV 0) (EV 7));
    Set_ 20 (E2 BXor (EV 1) (EV 6));
    Set_ 1 (E1 (URotr 44) (EV 20));
    Set_ 6 (E2 BSub (EV 6) (EV 1));
    Set_ 20 (E2 BXor (EV 7) (EV 2));
    Set_ 7 (E1 (URotr 39) (EV 20));
    Set_ 2 (E2 BSub (EV 2) (EV 7));
    Set_ 20 (E2 BXor (EV 5) (EV 0));
    Set_ 5 (E1 (URotr 36) (EV 20));
    Set_ 0 (E2 BSub (EV 0) (EV 5));
    Set_ 20 (E2 BXor (EV 3) (EV 6));
    Set_ 3 (E1 (URotr 49) (EV 20));
    Set_ 6 (E2 BSub (EV 6) (EV 3));
    Set_ 20 (E2 BXor (EV 1) (EV 4));
    Set_ 1 (E1 (URotr 17) (EV 20));
    Set_ 4 (E2 BSub (EV 4) (EV 1));
    Set_ 20 (E2 BXor (EV 3) (EV 0));
    Set_ 3 (E1 (URotr 42) (EV 20));
    Set_ 0 (E2 BSub (EV 0) (EV 3));
    Set_ 20 (E2 BXor (EV 5) (EV 6));
    Set_ 5 (E1 (URotr 14) (EV 20));
    Set_ 6 (E2 BSub (EV 6) (EV 5));
    Set_ 20 (E2 BXor (EV 7) (EV 4));
    Set_ 7 (E1 (URotr 27) (EV 20));
    Set_ 4 (E2 BSub (EV 4) (EV 7));
    Set_ 20 (E2 BXor (EV 1) (EV 2));
    Set_ 1 (E1 (URotr 33) (EV 20));
    Set_ 2 (E2 BSub (EV 2) (EV 1));
    Set_ 20 (E2 BXor (EV 7) (EV 6));
    Set_ 7 (E1 (URotr 37) (EV 20));
    Set_ 6 (E2 BSub (EV 6) (E2 BAdd (E2 BAdd (EV 7) (EV 14)) (EV 18)));
    Set_ 7 (E2 BSub (EV 7) (EV 15));
    Set_ 20 (E2 BXor (EV 5) (EV 4));
    Set_ 5 (E1 (URotr 19) (EV 20));
    Set_ 4 (E2 BSub (EV 4) (E2 BAdd (EV 5) (EV 12)));
    Set_ 5 (E2 BSub (EV 5) (E2 BAdd (EV 13) (EV 17)));
    Set_ 20 (E2 BXor (EV 3) (EV 2));
    Set_ 3 (E1 (URotr 36) (EV 20));
    Set_ 2 (E2 BSub (EV 2) (E2 BAdd (EV 3) (EV 10)));
    Set_ 3 (E2 BSub (EV 3) (EV 11));
    Set_ 20 (E2 BXor (EV 1) (EV 0));
    Set_ 1 (E1 (URotr 46) (EV 20));
    Set_ 0 (E2 BSub (EV 0) (E2 BAdd (EV 1) (EV 8)));
    Set_ 1 (E2 BSub (EV 1) (EV 9))]].
(** output[i] = ..., in increasing order of i, threefish512.go:1739-1746. *)
Definition dec512_out : list exp :=
  [(EV 0);
   (EV 1);
   (EV 2);
   (EV 3);
   (EV 4);
   (EV 5);
   (EV 6);
   (EV 7)].
(** threefish1024.go:125-1564. *)
Definition enc1024_groups : list prog :=
  [[Set_ 1 (E2 BAdd (EV 1) (EV 17));
    Set_ 0 (E2 BAdd (EV 0) (E2 BAdd (EV 1) (EV 16)));
    Set_ 1 (E2 BXor (E1 (URotl 24) (EV 1)) (EV 0));
    Set_ 3 (E2 BAdd (EV 3) (EV 19));
    Set_ 2 (E2 BAdd (EV 2) (E2 BAdd (EV 3) (EV 18)));
    Set_ 3 (E2 BXor (E1 (URotl 13) (EV 3)) (EV 2));
    Set_ 5 (E2 BAdd (EV 5) (EV 21));
    Set_ 4 (E2 BAdd (EV 4) (E2 BAdd (EV 5) (EV 20)));
    Set_ 5 (E2 BXor (E1 (URotl 8) (EV 5)) (EV 4));
    Set_ 7 (E2 BAdd (EV 7) (EV 23));
    Set_ 6 (E2 BAdd (EV 6) (E2 BAdd (EV 7) (EV 22)));
    Set_ 7 (E2 BXor (E1 (URotl 47) (EV 7)) (EV 6));
    Set_ 9 (E2 BAdd (EV 9) (EV 25));
    Set_ 8 (E2 BAdd (EV 8) (E2 BAdd (EV 9) (EV 24)));
    Set_ 9 (E2 BXor (E1 (URotl 8) (EV 9)) (EV 8));
    Set_ 11 (E2 BAdd (EV 11) (EV 27));
    Set_ 10 (E2 BAdd (EV 10) (E2 BAdd (EV 11) (EV 26)));
    Set_ 11 (E2 BXor (E1 (URotl 17) (EV 11)) (EV 10));
    Set_ 13 (E2 BAdd (EV 13) (E2 BAdd (EV 29) (EV 33)));
    Set_ 12 (E2 BAdd (EV 12) (E2 BAdd (EV 13) (EV 28)));
    Set_ 13 (E2 BXor (E1 (URotl 22) (EV 13)) (EV 12));
    Set_ 15 (E2 BAdd (EV 15) (EV 31));
    Set_ 14 (E2 BAdd (EV 14) (E2 BAdd (E2 BAdd (EV 15) (EV 30)) (EV 34)));
    Set_ 15 (E2 BXor (E1 (URotl 37) (EV 15)) (EV 14));
    Set_ 0 (E2 BAdd (EV 0) (EV 9));
    Set_ 9 (E2 BXor (E1 (URotl 38) (EV 9)) (EV 0));
    Set_ 2 (E2 BAdd (EV 2) (EV 13));
    Set_ 13 (E2 BXor (E1 (URotl 19) (EV 13)) (EV 2));
    Set_ 6 (E2 BAdd (EV 6) (EV 11));
    Set_ 11 (E2 BXor (E1 (URotl 10) (EV 11)) (EV 6));
    Set_ 4 (E2 BAdd (EV 4) (EV 15));
    Set_ 15 (E2 BXor (E1 (URotl 55) (EV 15)) (EV 4));
    Set_ 10 (E2 BAdd (EV 10) (EV 7));
    Set_ 7 (E2 BXor (E1 (URotl 49) (EV 7)) (EV 10));
    Set_ 12 (E2 BAdd (EV 12) (EV 3));
    Set_ 3 (E2 BXor (E1 (URotl 18) (EV 3)) (EV 12));
    Set_ 14 (E2 BAdd (EV 14) (EV 5));
    Set_ 5 (E2 BXor (E1 (URotl 23) (EV 5)) (EV 14));
    Set_ 8 (E2 BAdd (EV 8) (EV 1));
    Set_ 1 (E2 BXor (E1 (URotl 52) (EV 1)) (EV 8));
    Set_ 0 (E2 BAdd (EV 0) (EV 7));
    Set_ 7 (E2 BXor (E1 (URotl 33) (EV 7)) (EV 0));
    Set_ 2 (E2 BAdd (EV 2) (EV 5));
    Set_ 5 (E2 BXor (E1 (URotl 4) (EV 5)) (EV 2));
    Set_ 4 (E2 BAdd (EV 4) (EV 3));
    Set_ 3 (E2 BXor (E1 (URotl 51) (EV 3)) (EV 4));
    Set_ 6 (E2 BAdd (EV 6) (EV 1));
    Set_ 1 (E2 BXor (E1 (URotl 13) (EV 1)) (EV 6));
    Set_ 12 (E2 BAdd (EV 12) (EV 15));
    Set_ 15 (E2 BXor (E1 (URotl 34) (EV 15)) (EV 12));
    Set_ 14 (E2 BAdd (EV 14) (EV 13));
    Set_ 13 (E2 BXor (E1 (URotl 41) (EV 13)) (EV 14));
    Set_ 8 (E2 BAdd (EV 8) (EV 11));
    Set_ 11 (E2 BXor (E1 (URotl 59) (EV 11)) (EV 8));
    Set_ 10 (E2 BAdd (EV 10) (EV 9));
    Set_ 9 (E2 BXor (E1 (URotl 17) (EV 9)) (EV 10));
    Set_ 0 (E2 BAdd (EV 0) (EV 15));
    Set_ 15 (E2 BXor (E1 (URotl 5) (EV 15)) (EV 0));
    Set_ 2 (E2 BAdd (EV 2) (EV 11));
    Set_ 11 (E2 BXor (E1 (URotl 20) (EV 11)) (EV 2));
    Set_ 6 (E2 BAdd (EV 6) (EV 13));
    Set_ 13 (E2 BXor (E1 (URotl 48) (EV 13)) (EV 6));
    Set_ 4 (E2 BAdd (EV 4) (EV 9));
    Set_ 9 (E2 BXor (E1 (URotl 41) (EV 9)) (EV 4));
    Set_ 14 (E2 BAdd (EV 14) (EV 1));
    Set_ 1 (E2 BXor (E1 (URotl 47) (EV 1)) (EV 14));
    Set_ 8 (E2 BAdd (EV 8) (EV 5));
    Set_ 5 (E2 BXor (E1 (URotl 28) (EV 5)) (EV 8));
    Set_ 10 (E2 BAdd (EV 10) (EV 3));
    Set_ 3 (E2 BXor (E1 (URotl 16) (EV 3)) (EV 10));
    Set_ 12 (E2 BAdd (EV 12) (EV 7));
    Set_ 7 (E2 BXor (E1 (URotl 25) (EV 7)) (EV 12))];
   [Set_ 1 (E2 BAdd (EV 1) (EV 18));
    Set_ 0 (E2 BAdd (EV 0) (E2 BAdd (EV 1) (EV 17)));
    Set_ 1 (E2 BXor (E1 (URotl 41) (EV 1)) (EV 0));
    Set_ 3 (E2 BAdd (EV 3) (EV 20));
    Set_ 2 (E2 BAdd (EV 2) (E2 BAdd (EV 3) (EV 19)));
    Set_ 3 (E2 BXor (E1 (URotl 9) (EV 3)) (EV 2));
    Set_ 5 (E2 BAdd (EV 5) (EV 22));
    Set_ 4 (E2 BAdd (EV 4) (E2 BAdd (EV 5) (EV 21)));
    Set_ 5 (E2 BXor (E1 (URotl 37) (EV 5)) (EV 4));
    Set_ 7 (E2 BAdd (EV 7) (EV 24));
    Set_ 6 (E2 BAdd (EV 6) (E2 BAdd (EV 7) (EV 23)));
    Set_ 7 (E2 BXor (E1 (URotl 31) (EV 7)) (EV 6));
    Set_ 9 (E2 BAdd (EV 9) (EV 26));
    Set_ 8 (E2 BAdd (EV 8) (E2 BAdd (EV 9) (EV 25)));
    Set_ 9 (E2 BXor (E1 (URotl 12) (EV 9)) (EV 8));
    Set_ 11 (E2 BAdd (EV 11) (EV 28));
    Set_ 10 (E2 BAdd (EV 10) (E2 BAdd (EV 11) (EV 27)));
    Set_ 11 (E2 BXor (E1 (URotl 47) (EV 11)) (EV 10));
    Set_ 13 (E2 BAdd (EV 13) (E2 BAdd (EV 30) (EV 34)));
    Set_ 12 (E2 BAdd (EV 12) (E2 BAdd (EV 13) (EV 29)));
    Set_ 13 (E2 BXor (E1 (URotl 44) (EV 13)) (EV 12));
    Set_ 15 (E2 BAdd (EV 15) (E2 BAdd (EV 32) (EC 1)));
    Set_ 14 (E2 BAdd (EV 14) (E2 BAdd (E2 BAdd (EV 15) (EV 31)) (EV 35)));
    Set_ 15 (E2 BXor (E1 (URotl 30) (EV 15)) (EV 14));
    Set_ 0 (E2 BAdd (EV 0) (EV 9));
    Set_ 9 (E2 BXor (E1 (URotl 16) (EV 9)) (EV 0));
    Set_ 2 (E2 BAdd (EV 2) (EV 13));
    Set_ 13 (E2 BXor (E1 (URotl 34) (EV 13)) (EV 2));
    Set_ 6 (E2 BAdd (EV 6) (EV 11));
    Set_ 11 (E2 BXor (E1 (URotl 56) (EV 11)) (EV 6));
    Set_ 4 (E2 BAdd (EV 4) (EV 15));
    Set_ 15 (E2 BXor (E1 (URotl 51) (EV 15)) (EV 4));
    Set_ 10 (E2 BAdd (EV 10) (EV 7));
    Set_ 7 (E2 BXor (E1 (URotl 4) (EV 7)) (EV 10));
    Set_ 12 (E2 BAdd (EV 12) (EV 3));
    Set_ 3 (E2 BXor (E1 (URotl 53) (EV 3)) (EV 12));
    Set_ 14 (E2 BAdd (EV 14) (EV 5));
    Set_ 5 (E2 BXor (E1 (URotl 42) (EV 5)) (EV 14));
    Set_ 8 (E2 BAdd (EV 8) (EV 1));
    Set_ 1 (E2 BXor (E1 (URotl 41) (EV 1)) (EV 8));
    Set_ 0 (E2 BAdd (EV 0) (EV 7));
    Set_ 7 (E2 BXor (E1 (URotl 31) (EV 7)) (EV 0));
    Set_ 2 (E2 BAdd (EV 2) (EV 5));
    Set_ 5 (E2 BXor (E1 (URotl 44) (EV 5)) (EV 2));
    Set_ 4 (E2 BAdd (EV 4) (EV 3));
    Set_ 3 (E2 BXor (E1 (URotl 47) (EV 3)) (EV 4));
    Set_ 6 (E2 BAdd (EV 6) (EV 1));
    Set_ 1 (E2 BXor (E1 (URotl 46) (EV 1)) (EV 6));
    Set_ 12 (E2 BAdd (EV 12) (EV 15));
    Set_ 15 (E2 BXor (E1 (URotl 19) (EV 15)) (EV 12));
    Set_ 14 (E2 BAdd (EV 14) (EV 13));
    Set_ 13 (E2 BXor (E1 (URotl 42) (EV 13)) (EV 14));
    Set_ 8 (E2 BAdd (EV 8) (EV 11));
    Set_ 11 (E2 BXor (E1 (URotl 44) (EV 11)) (EV 8));
    Set_ 10 (E2 BAdd (EV 10) (EV 9));
    Set_ 9 (E2 BXor (E1 (URotl 25) (EV 9)) (EV 10));
    Set_ 0 (E2 BAdd (EV 0) (EV 15));
    Set_ 15 (E2 BXor (E1 (URotl 9) (EV 15)) (EV 0));
    Set_ 2 (E2 BAdd (EV 2) (EV 11));
    Set_ 11 (E2 BXor (E1 (URotl 48) (EV 11)) (EV 2));
    Set_ 6 (E2 BAdd (EV 6) (EV 13));
    Set_ 13 (E2 BXor (E1 (URotl 35) (EV 13)) (EV 6));
    Set_ 4 (E2 BAdd (EV 4) (EV 9));
    Set_ 9 (E2 BXor (E1 (URotl 52) (EV 9)) (EV 4));
    Set_ 14 (E2 BAdd (EV 14) (EV 1));
    Set_ 1 (E2 BXor (E1 (URotl 23) (EV 1)) (EV 14));
    Set_ 8 (E2 BAdd (EV 8) (EV 5));
    Set_ 5 (E2 BXor (E1 (URotl 31) (EV 5)) (EV 8));
    Set_ 10 (E2 BAdd (EV 10) (EV 3));
    Set_ 3 (E2 BXor (E1 (URotl 37) (EV 3)) (EV 10));
    Set_ 12 (E2 BAdd (EV 12) (EV 7));
    Set_ 7 (E2 BXor (E1 (URotl 20) (EV 7)) (EV 12))];
   [Set_ 1 (E2 BAdd (EV 1) (EV 19));
    Set_ 0 (E2 BAdd (EV 0) (E2 BAdd (EV 1) (EV 18)));
    Set_ 1 (E2 BXor (E1 (URotl 24) (EV 1)) (EV 0));
    Set_ 3 (E2 BAdd (EV 3) (EV 21));
    Set_ 2 (E2 BAdd (EV 2) (E2 BAdd (EV 3) (EV 20)));
    Set_ 3 (E2 BXor (E1 (URotl 13) (EV 3)) (EV 2));
    Set_ 5 (E2 BAdd (EV 5) (EV 23));
    Set_ 4 (E2 BAdd (EV 4) (E2 BAdd (EV 5) (EV 22)));
    Set_ 5 (E2 BXor (E1 (URotl 8) (EV 5)) (EV 4));
    Set_ 7 (E2 BAdd (EV 7) (EV 25));
    Set_ 6 (E2 BAdd (EV 6) (E2 BAdd (EV 7) (EV 24)));
    Set_ 7 (E2 BXor (E1 (URotl 47) (EV 7)) (EV 6));
    Set_ 9 (E2 BAdd (EV 9) (EV 27));
    Set_ 8 (E2 BAdd (EV 8) (E2 BAdd (EV 9) (EV 26)));
    Set_ 9 (E2 BXor (E1 (URotl 8) (EV 9)) (EV 8));
    Set_ 11 (E2 BAdd (EV 11) (EV 29));
    Set_ 10 (E2 BAdd (EV 10) (E2 BAdd (EV 11) (EV 28)));
    Set_ 11 (E2 BXor (E1 (URotl 17) (EV 11)) (EV 10));
    Set_ 13 (E2 BAdd (EV 13) (E2 BAdd (EV 31) (EV 35)));
    Set_ 12 (E2 BAdd (EV 12) (E2 BAdd (EV 13) (EV 30)));
    Set_ 13 (E2 BXor (E1 (URotl 22) (EV 13)) (EV 12));
    Set_ 15 (E2 BAdd (EV 15) (E2 BAdd (EV 16) (EC 2)));
    Set_ 14 (E2 BAdd (EV 14) (E2 BAdd (E2 BAdd (EV 15) (EV 32)) (EV 33)));
    Set_ 15 (E2 BXor (E1 (URotl 37) (EV 15)) (EV 14));
    Set_ 0 (E2 BAdd (EV 0) (EV 9));
    Set_ 9 (E2 BXor (E1 (URotl 38) (EV 9)) (EV 0));
    Set_ 2 (E2 BAdd (EV 2) (EV 13));
    Set_ 13 (E2 BXor (E1 (URotl 19) (EV 13)) (EV 2));
    Set_ 6 (E2 BAdd (EV 6) (EV 11));
    Set_ 11 (E2 BXor (E1 (URotl 10) (EV 11)) (EV 6));
    Set_ 4 (E2 BAdd (EV 4) (EV 15));
    Set_ 15 (E2 BXor (E1 (URotl 55) (EV 15)) (EV 4));
    Set_ 10 (E2 BAdd (EV 10) (EV 7));
    Set_ 7 (E2 BXor (E1 (URotl 49) (EV 7)) (EV 10));
    Set_ 12 (E2 BAdd (EV 12) (EV 3));
    Set_ 3 (E2 BXor (E1 (URotl 18) (EV 3)) (EV 12));
    Set_ 14 (E2 BAdd (EV 14) (EV 5));
    Set_ 5 (E2 BXor (E1 (URotl 23) (EV 5)) (EV 14));
    Set_ 8 (E2 BAdd (EV 8) (EV 1));
    Set_ 1 (E2 BXor (E1 (URotl 52) (EV 1)) (EV 8));
    Set_ 0 (E2 BAdd (EV 0) (EV 7));
    Set_ 7 (E2 BXor (E1 (URotl 33) (EV 7)) (EV 0));
    Set_ 2 (E2 BAdd (EV 2) (EV 5));
    Set_ 5 (E2 BXor (E1 (URotl 4) (EV 5)) (EV 2));
    Set_ 4 (E2 BAdd (EV 4) (EV 3));
    Set_ 3 (E2 BXor (E1 (URotl 51) (EV 3)) (EV 4));
    Set_ 6 (E2 BAdd (EV 6) (EV 1));
    Set_ 1 (E2 BXor (E1 (URotl 13) (EV 1)) (EV 6));
    Set_ 12 (E2 BAdd (EV 12) (EV 15));
    Set_ 15 (E2 BXor (E1 (URotl 34) (EV 15)) (EV 12));
    Set_ 14 (E2 BAdd (EV 14) (EV 13));
    Set_ 13 (E2 BXor (E1 (URotl 41) (EV 13)) (EV 14));
    Set_ 8 (E2 BAdd (EV 8) (EV 11));
    Set_ 11 (E2 BXor (E1 (URotl 59) (EV 11)) (EV 8));
    Set_ 10 (E2 BAdd (EV 10) (EV 9));
    Set_ 9 (E2 BXor (E1 (URotl 17) (EV 9)) (EV 10));
    Set_ 0 (E2 BAdd (EV 0) (EV 15));
    Set_ 15 (E2 BXor (E1 (URotl 5) (EV 15)) (EV 0));
    Set_ 2 (E2 BAdd (EV 2) (EV 11));
    Set_ 11 (E2 BXor (E1 (URotl 20) (EV 11)) (EV 2));
    Set_ 6 (E2 BAdd (EV 6) (EV 13));
    Set_ 13 (E2 BXor (E1 (URotl 48) (EV 13)) (EV 6));
    Set_ 4 (E2 BAdd (EV 4) (EV 9));
    Set_ 9 (E2 BXor (E1 (URotl 41) (EV 9)) (EV 4));
    Set_ 14 (E2 BAdd (EV 14) (EV 1));
    Set_ 1 (E2 BXor (E1 (URotl 47) (EV 1)) (EV 14));
    Set_ 8 (E2 BAdd (EV 8) (EV 5));
    Set_ 5 (E2 BXor (E1 (URotl 28) (EV 5)) (EV 8));
    Set_ 10 (E2 BAdd (EV 10) (EV 3));
    Set_ 3 (E2 BXor (E1 (URotl 16) (EV 3)) (EV 10));
    Set_ 12 (E2 BAdd (EV 12) (EV 7));
    Set_ 7 (E2 BXor (E1 (URotl 25) (EV 7)) (EV 12))];
   [Set_ 1 (E2 BAdd (EV 1) (EV 20));
    Set_ 0 (E2 BAdd (EV 0) (E2 BAdd (EV 1) (EV 19)));
    Set_ 1 (E2 BXor (E1 (URotl 41) (EV 1)) (EV 0));
    Set_ 3 (E2 BAdd (EV 3) (EV 22));
    Set_ 2 (E2 BAdd (EV 2) (E2 BAdd (EV 3) (EV 21)));
    Set_ 3 (E2 BXor (E1 (URotl 9) (EV 3)) (EV 2));
    Set_ 5 (E2 BAdd (EV 5) (EV 24));
    Set_ 4 (E2 BAdd (EV 4) (E2 BAdd (EV 5) (EV 23)));
    Set_ 5 (E2 BXor (E1 (URotl 37) (EV 5)) (EV 4));
    Set_ 7 (E2 BAdd (EV 7) (EV 26));
    Set_ 6 (E2 BAdd (EV 6) (E2 BAdd (EV 7) (EV 25)));
    Set_ 7 (E2 BXor (E1 (URotl 31) (EV 7)) (EV 6));
    Set_ 9 (E2 BAdd (EV 9) (EV 28));
    Set_ 8 (E2 BAdd (EV 8) (E2 BAdd (EV 9) (EV 27)));
    Set_ 9 (E2 BXor (E1 (URotl 12) (EV 9)) (EV 8));
    Set_ 11 (E2 BAdd (EV 11) (EV 30));
    Set_ 10 (E2 BAdd (EV 10) (E2 BAdd (EV 11) (EV 29)));
    Set_ 11 (E2 BXor (E1 (URotl 47) (EV 11)) (EV 10));
    Set_ 13 (E2 BAdd (EV 13) (E2 BAdd (EV 32) (EV 33)));
    Set_ 12 (E2 BAdd (EV 12) (E2 BAdd (EV 13) (EV 31)));
    Set_ 13 (E2 BXor (E1 (URotl 44) (EV 13)) (EV 12));
    Set_ 15 (E2 BAdd (EV 15) (E2 BAdd (EV 17) (EC 3)));
    Set_ 14 (E2 BAdd (EV 14) (E2 BAdd (E2 BAdd (EV 15) (EV 16)) (EV 34)));
    Set_ 15 (E2 BXor (E1 (URotl 30) (EV 15)) (EV 14));
    Set_ 0 (E2 BAdd (EV 0) (EV 9));
    Set_ 9 (E2 BXor (E1 (URotl 16) (EV 9)) (EV 0));
    Set_ 2 (E2 BAdd (EV 2) (EV 13));
    Set_ 13 (E2 BXor (E1 (URotl 34) (EV 13)) (EV 2));
    Set_ 6 (E2 BAdd (EV 6) (EV 11));
    Set_ 11 (E2 BXor (E1 (URotl 56) (EV 11)) (EV 6));
    Set_ 4 (E2 BAdd (EV 4) (EV 15));
    Set_ 15 (E2 BXor (E1 (URotl 51) (EV 15)) (EV 4));
    Set_ 10 (E2 BAdd (EV 10) (EV 7));
    Set_ 7 (E2 BXor (E1 (URotl 4) (EV 7)) (EV 10));
    Set_ 12 (E2 BAdd (EV 12) (EV 3));
    Set_ 3 (E2 BXor (E1 (URotl 53) (EV 3)) (EV 12));
    Set_ 14 (E2 BAdd (EV 14) (EV 5));
    Set_ 5 (E2 BXor (E1 (URotl 42) (EV 5)) (EV 14));
    Set_ 8 (E2 BAdd (EV 8) (EV 1));
    Set_ 1 (E2 BXor (E1 (URotl 41) (EV 1)) (EV 8));
    Set_ 0 (E2 BAdd (EV 0) (EV 7));
    Set_ 7 (E2 BXor (E1 (URotl 31) (EV 7)) (EV 0));
    Set_ 2 (E2 BAdd (EV 2) (EV 5));
    Set_ 5 (E2 BXor (E1 (URotl 44) (EV 5)) (EV 2));
    Set_ 4 (E2 BAdd (EV 4) (EV 3));
    Set_ 3 (E2 BXor (E1 (URotl 47) (EV 3)) (EV 4));
    Set_ 6 (E2 BAdd (EV 6) (EV 1));
    Set_ 1 (E2 BXor (E1 (URotl 46) (EV 1)) (EV 6));
    Set_ 12 (E2 BAdd (EV 12) (EV 15));
    Set_ 15 (E2 BXor (E1 (URotl 19) (EV 15)) (EV 12));
    Set_ 14 (E2 BAdd (EV 14) (EV 13));
    Set_ 13 (E2 BXor (E1 (URotl 42) (EV 13)) (EV 14));
    Set_ 8 (E2 BAdd (EV 8) (EV 11));
    Set_ 11 (E2 BXor (E1 (URotl 44) (EV 11)) (EV 8));
    Set_ 10 (E2 BAdd (EV 10) (EV 9));
    Set_ 9 (E2 BXor (E1 (URotl 25) (EV 9)) (EV 10));
    Set_ 0 (E2 BAdd (EV 0) (EV 15));
    Set_ 15 (E2 BXor (E1 (URotl 9) (EV 15)) (EV 0));
    Set_ 2 (E2 BAdd (EV 2) (EV 11));
    Set_ 11 (E2 BXor (E1 (URotl 48) (EV 11)) (EV 2));
    Set_ 6 (E2 BAdd (EV 6) (EV 13));
    Set_ 13 (E2 BXor (E1 (URotl 35) (EV 13)) (EV 6));
    Set_ 4 (E2 BAdd (EV 4) (EV 9));
    Set_ 9 (E2 BXor (E1 (URotl 52) (EV 9)) (EV 4));
    Set_ 14 (E2 BAdd (EV 14) (EV 1));
    Set_ 1 (E2 BXor (E1 (URotl 23) (EV 1)) (EV 14));
    Set_ 8 (E2 BAdd (EV 8) (EV 5));
    Set_ 5 (E2 BXor (E1 (URotl 31) (EV 5)) (EV 8));
    Set_ 10 (E2 BAdd (EV 10) (EV 3));
    Set_ 3 (E2 BXor (E1 (URotl 37) (EV 3)) (EV 10));
    Set_ 12 (E2 BAdd (EV 12) (EV 7));
    Set_ 7 (E2 BXor (E1 (URotl 20) (EV 7)) (EV 12))];
   [Set_ 1 (E2 BAdd (EV 1) (EV 21));
    Set_ 0 (E2 BAdd (EV 0) (E2 BAdd (EV 1) (EV 20)));
    Set_ 1 (E2 BXor (E1 (URotl 24) (EV 1)) (EV 0));
    Set_ 3 (E2 BAdd (EV 3) (EV 23));
    Set_ 2 (E2 BAdd (EV 2) (E2 BAdd (EV 3) (EV 22)));
    Set_ 3 (E2 BXor (E1 (URotl 13) (EV 3)) (EV 2));
    Set_ 5 (E2 BAdd (EV 5) (EV 25));
    Set_ 4 (E2 BAdd (EV 4) (E2 BAdd (EV 5) (EV 24)));
    Set_ 5 (E2 BXor (E1 (URotl 8) (EV 5)) (EV 4));
    Set_ 7 (E2 BAdd (EV 7) (EV 27));
    Set_ 6 (E2 BAdd (EV 6) (E2 BAdd (EV 7) (EV 26)));
    Set_ 7 (E2 BXor (E1 (URotl 47) (EV 7)) (EV 6));
    Set_ 9 (E2 BAdd (EV 9) (EV 29));
    Set_ 8 (E2 BAdd (EV 8) (E2 BAdd (EV 9) (EV 28)));
    Set_ 9 (E2 BXor (E1 (URotl 8) (EV 9)) (EV 8));
    Set_ 11 (E2 BAdd (EV 11) (EV 31));
    Set_ 10 (E2 BAdd (EV 10) (E2 BAdd (EV 11) (EV 30)));
    Set_ 11 (E2 BXor (E1 (URotl 17) (EV 11)) (EV 10));
    Set_ 13 (E2 BAdd (EV 13) (E2 BAdd (EV 16) (EV 34)));
    Set_ 12 (E2 BAdd (EV 12) (E2 BAdd (EV 13) (EV 32)));
    Set_ 13 (E2 BXor (E1 (URotl 22) (EV 13)) (EV 12));
    Set_ 15 (E2 BAdd (EV 15) (E2 BAdd (EV 18) (EC 4)));
    Set_ 14 (E2 BAdd (EV 14) (E2 BAdd (E2 BAdd (EV 15) (EV 17)) (EV 35)));
    Set_ 15 (E2 BXor (E1 (URotl 37) (EV 15)) (EV 14));
    Set_ 0 (E2 BAdd (EV 0) (EV 9));
    Set_ 9 (E2 BXor (E1 (URotl 38) (EV 9)) (EV 0));
    Set_ 2 (E2 BAdd (EV 2) (EV 13));
    Set_ 13 (E2 BXor (E1 (URotl 19) (EV 13)) (EV 2));
    Set_ 6 (E2 BAdd (EV 6) (EV 11));
    Set_ 11 (E2 BXor (E1 (URotl 10) (EV 11)) (EV 6));
    Set_ 4 (E2 BAdd (EV 4) (EV 15));
    Set_ 15 (E2 BXor (E1 (URotl 55) (EV 15)) (EV 4));
    Set_ 10 (E2 BAdd (EV 10) (EV 7));
    Set_ 7 (E2 BXor (E1 (URotl 49) (EV 7)) (EV 10));
    Set_ 12 (E2 BAdd (EV 12) (EV 3));
    Set_ 3 (E2 BXor (E1 (URotl 18) (EV 3)) (EV 12));
    Set_ 14 (E2 BAdd (EV 14) (EV 5));
    Set_ 5 (E2 BXor (E1 (URotl 23) (EV 5)) (EV 14));
    Set_ 8 (E2 BAdd (EV 8) (EV 1));
    Set_ 1 (E2 BXor (E1 (URotl 52) (EV 1)) (EV 8));
    Set_ 0 (E2 BAdd (EV 0) (EV 7));
    Set_ 7 (E2 BXor (E1 (URotl 33) (EV 7)) (EV 0));
    Set_ 2 (E2 BAdd (EV 2) (EV 5));
    Set_ 5 (E2 BXor (E1 (URotl 4) (EV 5)) (EV 2));
    Set_ 4 (E2 BAdd (EV 4) (EV 3));
    Set_ 3 (E2 BXor (E1 (URotl 51) (EV 3)) (EV 4));
    Set_ 6 (E2 BAdd (EV 6) (EV 1));
    Set_ 1 (E2 BXor (E1 (URotl 13) (EV 1)) (EV 6));
    Set_ 12 (E2 BAdd (EV 12) (EV 15));
    Set_ 15 (E2 BXor (E1 (URotl 34) (EV 15)) (EV 12));
    Set_ 14 (E2 BAdd (EV 14) (EV 13));
    Set_ 13 (E2 BXor (E1 (URotl 41) (EV 13)) (EV 14));
    Set_ 8 (E2 BAdd (EV 8) (EV 11));
    Set_ 11 (E2 BXor (E1 (URotl 59) (EV 11)) (EV 8));
    Set_ 10 (E2 BAdd (EV 10) (EV 9));
    Set_ 9 (E2 BXor (E1 (URotl 17) (EV 9)) (EV 10));
    Set_ 0 (E2 BAdd (EV 0) (EV 15));
    Set_ 15 (E2 BXor (E1 (URotl 5) (EV 15)) (EV 0));
    Set_ 2 (E2 BAdd (EV 2) (EV 11));
    Set_ 11 (E2 BXor (E1 (URotl 20) (EV 11)) (EV 2));
    Set_ 6 (E2 BAdd (EV 6) (EV 13));
    Set_ 13 (E2 BXor (E1 (URotl 48) (EV 13)) (EV 6));
    Set_ 4 (E2 BAdd (EV 4) (EV 9));
    Set_ 9 (E2 BXor (E1 (URotl 41) (EV 9)) (EV 4));
    Set_ 14 (E2 BAdd (EV 14) (EV 1));
    Set_ 1 (E2 BXor (E1 (URotl 47) (EV 1)) (EV 14));
    Set_ 8 (E2 BAdd (EV 8) (EV 5));
    Set_ 5 (E2 BXor (E1 (URotl 28) (EV 5)) (EV 8));
    Set_ 10 (E2 BAdd (EV 10) (EV 3));
    Set_ 3 (E2 BXor (E1 (URotl 16) (EV 3)) (EV 10));
    Set_ 12 (E2 BAdd (EV 12) (EV 7));
    Set_ 7 (E2 BXor (E1 (URotl 25) (EV 7)) (EV 12))];
   [Set_ 1 (E2 BAdd (EV 1) (EV 22));
    Set_ 0 (E2 BAdd (EV 0) (E2 BAdd (EV 1) (EV 21)));
    Set_ 1 (E2 BXor (E1 (URotl 41) (EV 1)) (EV 0));
    Set_ 3 (E2 BAdd (EV 3) (EV 24));
    Set_ 2 (E2 BAdd (EV 2) (E2 BAdd (EV 3) (EV 23)));
    Set_ 3 (E2 BXor (E1 (URotl 9) (EV 3)) (EV 2));
    Set_ 5 (E2 BAdd (EV 5) (EV 26));
    Set_ 4 (E2 BAdd (EV 4) (E2 BAdd (EV 5) (EV 25)));
    Set_ 5 (E2 BXor (E1 (URotl 37) (EV 5)) (EV 4));
    Set_ 7 (E2 BAdd (EV 7) (EV 28));
    Set_ 6 (E2 BAdd (EV 6) (E2 BAdd (EV 7) (EV 27)));
    Set_ 7 (E2 BXor (E1 (URotl 31) (EV 7)) (EV 6));
    Set_ 9 (E2 BAdd (EV 9) (EV 30));
    Set_ 8 (E2 BAdd (EV 8) (E2 BAdd (EV 9) (EV 29)));
    Set_ 9 (E2 BXor (E1 (URotl 12) (EV 9)) (EV 8));
    Set_ 11 (E2 BAdd (EV 11) (EV 32));
    Set_ 10 (E2 BAdd (EV 10) (E2 BAdd (EV 11) (EV 31)));
    Set_ 11 (E2 BXor (E1 (URotl 47) (EV 11)) (EV 10));
    Set_ 13 (E2 BAdd (EV 13) (E2 BAdd (EV 17) (EV 35)));
    Set_ 12 (E2 BAdd (EV 12) (E2 BAdd (EV 13) (EV 16)));
    Set_ 13 (E2 BXor (E1 (URotl 44) (EV 13)) (EV 12));
    Set_ 15 (E2 BAdd (EV 15) (E2 BAdd (EV 19) (EC 5)));
    Set_ 14 (E2 BAdd (EV 14) (E2 BAdd (E2 BAdd (EV 15) (EV 18)) (EV 33)));
    Set_ 15 (E2 BXor (E1 (URotl 30) (EV 15)) (EV 14));
    Set_ 0 (E2 BAdd (EV 0) (EV 9));
    Set_ 9 (E2 BXor (E1 (URotl 16) (EV 9)) (EV 0));
    Set_ 2 (E2 BAdd (EV 2) (EV 13));
    Set_ 13 (E2 BXor (E1 (URotl 34) (EV 13)) (EV 2));
    Set_ 6 (E2 BAdd (EV 6) (EV 11));
    Set_ 11 (E2 BXor (E1 (URotl 56) (EV 11)) (EV 6));
    Set_ 4 (E2 BAdd (EV 4) (EV 15));
    Set_ 15 (E2 BXor (E1 (URotl 51) (EV 15)) (EV 4));
    Set_ 10 (E2 BAdd (EV 10) (EV 7));
    Set_ 7 (E2 BXor (E1 (URotl 4) (EV 7)) (EV 10));
    Set_ 12 (E2 BAdd (EV 12) (EV 3));
    Set_ 3 (E2 BXor (E1 (URotl 53) (EV 3)) (EV 12));
    Set_ 14 (E2 BAdd (EV 14) (EV 5));
    Set_ 5 (E2 BXor (E1 (URotl 42) (EV 5)) (EV 14));
    Set_ 8 (E2 BAdd (EV 8) (EV 1));
    Set_ 1 (E2 BXor (E1 (URotl 41) (EV 1)) (EV 8));
    Set_ 0 (E2 BAdd (EV 0) (EV 7));
    Set_ 7 (E2 BXor (E1 (URotl 31) (EV 7)) (EV 0));
    Set_ 2 (E2 BAdd (EV 2) (EV 5));
    Set_ 5 (E2 BXor (E1 (URotl 44) (EV 5)) (EV 2));
    Set_ 4 (E2 BAdd (EV 4) (EV 3));
    Set_ 3 (E2 BXor (E1 (URotl 47) (EV 3)) (EV 4));
    Set_ 6 (E2 BAdd (EV 6) (EV 1));
    Set_ 1 (E2 BXor (E1 (URotl 46) (EV 1)) (EV 6));
    Set_ 12 (E2 BAdd (EV 12) (EV 15));
    Set_ 15 (E2 BXor (E1 (URotl 19) (EV 15)) (EV 12));
    Set_ 14 (E2 BAdd (EV 14) (EV 13));
    Set_ 13 (E2 BXor (E1 (URotl 42) (EV 13)) (EV 14));
    Set_ 8 (E2 BAdd (EV 8) (EV 11));
    Set_ 11 (E2 BXor (E1 (URotl 44) (EV 11)) (EV 8));
    Set_ 10 (E2 BAdd (EV 10) (EV 9));
    Set_ 9 (E2 BXor (E1 (URotl 25) (EV 9)) (EV 10));
    Set_ 0 (E2 BAdd (EV 0) (EV 15));
    Set_ 15 (E2 BXor (E1 (URotl 9) (EV 15)) (EV 0));
    Set_ 2 (E2 BAdd (EV 2) (EV 11));
    Set_ 11 (E2 BXor (E1 (URotl 48) (EV 11)) (EV 2));
    Set_ 6 (E2 BAdd (EV 6) (EV 13));
    Set_ 13 (E2 BXor (E1 (URotl 35) (EV 13)) (EV 6));
    Set_ 4 (E2 BAdd (EV 4) (EV 9));
    Set_ 9 (E2 BXor (E1 (URotl 52) (EV 9)) (EV 4));
    Set_ 14 (E2 BAdd (EV 14) (EV 1));
    Set_ 1 (E2 BXor (E1 (URotl 23) (EV 1)) (EV 14));
    Set_ 8 (E2 BAdd (EV 8) (EV 5));
    Set_ 5 (E2 BXor (E1 (URotl 31) (EV 5)) (EV 8));
    Set_ 10 (E2 BAdd (EV 10) (EV 3));
    Set_ 3 (E2 BXor (E1 (URotl 37) (EV 3)) (EV 10));
    Set_ 12 (E2 BAdd (EV 12) (EV 7));
    Set_ 7 (E2 BXor (E1 (URotl 20) (EV 7)) (EV 12))];
   [Set_ 1 (E2 BAdd (EV 1) (EV 23));
    Set_ 0 (E2 BAdd (EV 0) (E2 BAdd (EV 1) (EV 22)));
    Set_ 1 (E2 BXor (E1 (URotl 24) (EV 1)) (EV 0));
    Set_ 3 (E2 BAdd (EV 3) (EV 25));
    Set_ 2 (E2 BAdd (EV 2) (E2 BAdd (EV 3) (EV 24)));
    Set_ 3 (E2 BXor (E1 (URotl 13) (EV 3)) (EV 2));
    Set_ 5 (E2 BAdd (EV 5) (EV 27));
    Set_ 4 (E2 BAdd (EV 4) (E2 BAdd (EV 5) (EV 26)));
    Set_ 5 (E2 BXor (E1 (URotl 8) (EV 5)) (EV 4));
    Set_ 7 (E2 BAdd (EV 7) (EV 29));
    Set_ 6 (E2 BAdd (EV 6) (E2 BAdd (EV 7) (EV 28)));
    Set_ 7 (E2 BXor (E1 (URotl 47) (EV 7)) (EV 6));
    Set_ 9 (E2 BAdd (EV 9) (EV 31));
    Set_ 8 (E2 BAdd (EV 8) (E2 BAdd (EV 9) (EV 30)));
    Set_ 9 (E2 BXor (E1 (URotl 8) (EV 9)) (EV 8));
    Set_ 11 (E2 BAdd (EV 11) (EV 16));
    Set_ 10 (E2 BAdd (EV 10) (E2 BAdd (EV 11) (EV 32)));
    Set_ 11 (E2 BXor (E1 (URotl 17) (EV 11)) (EV 10));
    Set_ 13 (E2 BAdd (EV 13) (E2 BAdd (EV 18) (EV 33)));
    Set_ 12 (E2 BAdd (EV 12) (E2 BAdd (EV 13) (EV 17)));
    Set_ 13 (E2 BXor (E1 (URotl 22) (EV 13)) (EV 12));
    Set_ 15 (E2 BAdd (EV 15) (E2 BAdd (EV 20) (EC 6)));
    Set_ 14 (E2 BAdd (EV 14) (E2 BAdd (E2 BAdd (EV 15) (EV 19)) (EV 34)));
    Set_ 15 (E2 BXor (E1 (URotl 37) (EV 15)) (EV 14));
    Set_ 0 (E2 BAdd (EV 0) (EV 9));
    Set_ 9 (E2 BXor (E1 (URotl 38) (EV 9)) (EV 0));
    Set_ 2 (E2 BAdd (EV 2) (EV 13));
    Set_ 13 (E2 BXor (E1 (URotl 19) (EV 13)) (EV 2));
    Set_ 6 (E2 BAdd (EV 6) (EV 11));
    Set_ 11 (E2 BXor (E1 (URotl 10) (EV 11)) (EV 6));
    Set_ 4 (E2 BAdd (EV 4) (EV 15));
    Set_ 15 (E2 BXor (E1 (URotl 55) (EV 15)) (EV 4));
    Set_ 10 (E2 BAdd (EV 10) (EV 7));
    Set_ 7 (E2 BXor (E1 (URotl 49) (EV 7)) (EV 10));
    Set_ 12 (E2 BAdd (EV 12) (EV 3));
    Set_ 3 (E2 BXor (E1 (URotl 18) (EV 3)) (EV 12));
    Set_ 14 (E2 BAdd (EV 14) (EV 5));
    Set_ 5 (E2 BXor (E1 (URotl 23) (EV 5)) (EV 14));
    Set_ 8 (E2 BAdd (EV 8) (EV 1));
    Set_ 1 (E2 BXor (E1 (URotl 52) (EV 1)) (EV 8));
    Set_ 0 (E2 BAdd (EV 0) (EV 7));
    Set_ 7 (E2 BXor (E1 (URotl 33) (EV 7)) (EV 0));
    Set_ 2 (E2 BAdd (EV 2) (EV 5));
    Set_ 5 (E2 BXor (E1 (URotl 4) (EV 5)) (EV 2));
    Set_ 4 (E2 BAdd (EV 4) (EV 3));
    Set_ 3 (E2 BXor (E1 (URotl 51) (EV 3)) (EV 4));
    Set_ 6 (E2 BAdd (EV 6) (EV 1));
    Set_ 1 (E2 BXor (E1 (URotl 13) (EV 1)) (EV 6));
    Set_ 12 (E2 BAdd (EV 12) (EV 15));
    Set_ 15 (E2 BXor (E1 (URotl 34) (EV 15)) (EV 12));
    Set_ 14 (E2 BAdd (EV 14) (EV 13));
    Set_ 13 (E2 BXor (E1 (URotl 41) (EV 13)) (EV 14));
    Set_ 8 (E2 BAdd (EV 8) (EV 11));
    Set_ 11 (E2 BXor (E1 (URotl 59) (EV 11)) (EV 8));
    Set_ 10 (E2 BAdd (EV 10) (EV 9));
    Set_ 9 (E2 BXor (E1 (URotl 17) (EV 9)) (EV 10));
    Set_ 0 (E2 BAdd (EV 0) (EV 15));
    Set_ 15 (E2 BXor (E1 (URotl 5) (EV 15)) (EV 0));
    Set_ 2 (E2 BAdd (EV 2) (EV 11));
    Set_ 11 (E2 BXor (E1 (URotl 20) (EV 11)) (EV 2));
    Set_ 6 (E2 BAdd (EV 6) (EV 13));
    Set_ 13 (E2 BXor (E1 (URotl 48) (EV 13)) (EV 6));
    Set_ 4 (E2 BAdd (EV 4) (EV 9));
    Set_ 9 (E2 BXor (E1 (URotl 41) (EV 9)) (EV 4));
    Set_ 14 (E2 BAdd (EV 14) (EV 1));
    Set_ 1 (E2 BXor (E1 (URotl 47) (EV 1)) (EV 14));
    Set_ 8 (E2 BAdd (EV 8) (EV 5));
    Set_ 5 (E2 BXor (E1 (URotl 28) (EV 5)) (EV 8));
    Set_ 10 (E2 BAdd (EV 10) (EV 3));
    Set_ 3 (E2 BXor (E1 (URotl 16) (EV 3)) (EV 10));
    Set_ 12 (E2 BAdd (EV 12) (EV 7));
    Set_ 7 (E2 BXor (E1 (URotl 25) (EV 7)) (EV 12))];
   [Set_ 1 (E2 BAdd (EV 1) (EV 24));
    Set_ 0 (E2 BAdd (EV 0) (E2 BAdd (EV 1) (EV 23)));
    Set_ 1 (E2 BXor (E1 (URotl 41) (EV 1)) (EV 0));
    Set_ 3 (E2 BAdd (EV 3) (EV 26));
    Set_ 2 (E2 BAdd (EV 2) (E2 BAdd (EV 3) (EV 25)));
    Set_ 3 (E2 BXor (E1 (URotl 9) (EV 3)) (EV 2));
    Set_ 5 (E2 BAdd (EV 5) (EV 28));
    Set_ 4 (E2 BAdd (EV 4) (E2 BAdd (EV 5) (EV 27)));
    Set_ 5 (E2 BXor (E1 (URotl 37) (EV 5)) (EV 4));
    Set_ 7 (E2 BAdd (EV 7) (EV 30));
    Set_ 6 (E2 BAdd (EV 6) (E2 BAdd (EV 7) (EV 29)));
    Set_ 7 (E2 BXor (E1 (URotl 31) (EV 7)) (EV 6));
    Set_ 9 (E2 BAdd (EV 9) (EV 32));
    Set_ 8 (E2 BAdd (EV 8) (E2 BAdd (EV 9) (EV 31)));
    Set_ 9 (E2 BXor (E1 (URotl 12) (EV 9)) (EV 8));
    Set_ 11 (E2 BAdd (EV 11) (EV 17));
    Set_ 10 (E2 BAdd (EV 10) (E2 BAdd (EV 11) (EV 16)));
    Set_ 11 (E2 BXor (E1 (URotl 47) (EV 11)) (EV 10));
    Set_ 13 (E2 BAdd (EV 13) (E2 BAdd (EV 19) (EV 34)));
    Set_ 12 (E2 BAdd (EV 12) (E2 BAdd (EV 13) (EV 18)));
    Set_ 13 (E2 BXor (E1 (URotl 44) (EV 13)) (EV 12));
    Set_ 15 (E2 BAdd (EV 15) (E2 BAdd (EV 21) (EC 7)));
    Set_ 14 (E2 BAdd (EV 14) (E2 BAdd (E2 BAdd (EV 15) (EV 20)) (EV 35)));
    Set_ 15 (E2 BXor (E1 (URotl 30) (EV 15)) (EV 14));
    Set_ 0 (E2 BAdd (EV 0) (EV 9));
    Set_ 9 (E2 BXor (E1 (URotl 16) (EV 9)) (EV 0));
    Set_ 2 (E2 BAdd (EV 2) (EV 13));
    Set_ 13 (E2 BXor (E1 (URotl 34) (EV 13)) (EV 2));
    Set_ 6 (E2 BAdd (EV 6) (EV 11));
    Set_ 11 (E2 BXor (E1 (URotl 56) (EV 11)) (EV 6));
    Set_ 4 (E2 BAdd (EV 4) (EV 15));
    Set_ 15 (E2 BXor (E1 (URotl 51) (EV 15)) (EV 4));
    Set_ 10 (E2 BAdd (EV 10) (EV 7));
    Set_ 7 (E2 BXor (E1 (URotl 4) (EV 7)) (EV 10));
    Set_ 12 (E2 BAdd (EV 12) (EV 3));
    Set_ 3 (E2 BXor (E1 (URotl 53) (EV 3)) (EV 12));
    Set_ 14 (E2 BAdd (EV 14) (EV 5));
    Set_ 5 (E2 BXor (E1 (URotl 42) (EV 5)) (EV 14));
    Set_ 8 (E2 BAdd (EV 8) (EV 1));
    Set_ 1 (E2 BXor (E1 (URotl 41) (EV 1)) (EV 8));
    Set_ 0 (E2 BAdd (EV 0) (EV 7));
    Set_ 7 (E2 BXor (E1 (URotl 31) (EV 7)) (EV 0));
    Set_ 2 (E2 BAdd (EV 2) (EV 5));
    Set_ 5 (E2 BXor (E1 (URotl 44) (EV 5)) (EV 2));
    Set_ 4 (E2 BAdd (EV 4) (EV 3));
    Set_ 3 (E2 BXor (E1 (URotl 47) (EV 3)) (EV 4));
    Set_ 6 (E2 BAdd (EV 6) (EV 1));
    Set_ 1 (E2 BXor (E1 (URotl 46) (EV 1)) (EV 6));
    Set_ 12 (E2 BAdd (EV 12) (EV 15));
    Set_ 15 (E2 BXor (E1 (URotl 19) (EV 15)) (EV 12));
    Set_ 14 (E2 BAdd (EV 14) (EV 13));
    Set_ 13 (E2 BXor (E1 (URotl 42) (EV 13)) (EV 14));
    Set_ 8 (E2 BAdd (EV 8) (EV 11));
    Set_ 11 (E2 BXor (E1 (URotl 44) (EV 11)) (EV 8));
    Set_ 10 (E2 BAdd (EV 10) (EV 9));
    Set_ 9 (E2 BXor (E1 (URotl 25) (EV 9)) (EV 10));
    Set_ 0 (E2 BAdd (EV 0) (EV 15));
    Set_ 15 (E2 BXor (E1 (URotl 9) (EV 15)) (EV 0));
    Set_ 2 (E2 BAdd (EV 2) (EV 11));
    Set_ 11 (E2 BXor (E1 (URotl 48) (EV 11)) (EV 2));
    Set_ 6 (E2 BAdd (EV 6) (EV 13));
    Set_ 13 (E2 BXor (E1 (URotl 35) (EV 13)) (EV 6));
    Set_ 4 (E2 BAdd (EV 4) (EV 9));
    Set_ 9 (E2 BXor (E1 (URotl 52) (EV 9)) (EV 4));
    Set_ 14 (E2 BAdd (EV 14) (EV 1));
    Set_ 1 (E2 BXor (E1 (URotl 23) (EV 1)) (EV 14));
    Set_ 8 (E2 BAdd (EV 8) (EV 5));
    Set_ 5 (E2 BXor (E1 (URotl 31) (EV 5)) (EV 8));
    Set_ 10 (E2 BAdd (EV 10) (EV 3));
    Set_ 3 (E2 BXor (E1 (URotl 37) (EV 3)) (EV 10));
    Set_ 12 (E2 BAdd (EV 12) (EV 7));
    Set_ 7 (E2 BXor (E1 (URotl 20) (EV 7)) (EV 12))];
   [Set_ 1 (E2 BAdd (EV 1) (EV 25));
    Set_ 0 (E2 BAdd (EV 0) (E2 BAdd (EV 1) (EV 24)));
    Set_ 1 (E2 BXor (E1 (URotl 24) (EV 1)) (EV 0));
    Set_ 3 (E2 BAdd (EV 3) (EV 27));
    Set_ 2 (E2 BAdd (EV 2) (E2 BAdd (EV 3) (EV 26)));
    Set_ 3 (E2 BXor (E1 (URotl 13) (EV 3)) (EV 2));
    Set_ 5 (E2 BAdd (EV 5) (EV 29));
    Set_ 4 (E2 BAdd (EV 4) (E2 BAdd (EV 5) (EV 28)));
    Set_ 5 (E2 BXor (E1 (URotl 8) (EV 5)) (EV 4));
    Set_ 7 (E2 BAdd (EV 7) (EV 31));
    Set_ 6 (E2 BAdd (EV 6) (E2 BAdd (EV 7) (EV 30)));
    Set_ 7 (E2 BXor (E1 (URotl 47) (EV 7)) (EV 6));
    Set_ 9 (E2 BAdd (EV 9) (EV 16));
    Set_ 8 (E2 BAdd (EV 8) (E2 BAdd (EV 9) (EV 32)));
    Set_ 9 (E2 BXor (E1 (URotl 8) (EV 9)) (EV 8));
    Set_ 11 (E2 BAdd (EV 11) (EV 18));
    Set_ 10 (E2 BAdd (EV 10) (E2 BAdd (EV 11) (EV 17)));
    Set_ 11 (E2 BXor (E1 (URotl 17) (EV 11)) (EV 10));
    Set_ 13 (E2 BAdd (EV 13) (E2 BAdd (EV 20) (EV 35)));
    Set_ 12 (E2 BAdd (EV 12) (E2 BAdd (EV 13) (EV 19)));
    Set_ 13 (E2 BXor (E1 (URotl 22) (EV 13)) (EV 12));
    Set_ 15 (E2 BAdd (EV 15) (E2 BAdd (EV 22) (EC 8)));
    Set_ 14 (E2 BAdd (EV 14) (E2 BAdd (E2 BAdd (EV 15) (EV 21)) (EV 33)));
    Set_ 15 (E2 BXor (E1 (URotl 37) (EV 15)) (EV 14));
    Set_ 0 (E2 BAdd (EV 0) (EV 9));
    Set_ 9 (E2 BXor (E1 (URotl 38) (EV 9)) (EV 0));
    Set_ 2 (E2 BAdd (EV 2) (EV 13));
    Set_ 13 (E2 BXor (E1 (URotl 19) (EV 13)) (EV 2));
    Set_ 6 (E2 BAdd (EV 6) (EV 11));
    Set_ 11 (E2 BXor (E1 (URotl 10) (EV 11)) (EV 6));
    Set_ 4 (E2 BAdd (EV 4) (EV 15));
    Set_ 15 (E2 BXor (E1 (URotl 55) (EV 15)) (EV 4));
    Set_ 10 (E2 BAdd (EV 10) (EV 7));
    Set_ 7 (E2 BXor (E1 (URotl 49) (EV 7)) (EV 10));
    Set_ 12 (E2 BAdd (EV 12) (EV 3));
    Set_ 3 (E2 BXor (E1 (URotl 18) (EV 3)) (EV 12));
    Set_ 14 (E2 BAdd (EV 14) (EV 5));
    Set_ 5 (E2 BXor (E1 (URotl 23) (EV 5)) (EV 14));
    Set_ 8 (E2 BAdd (EV 8) (EV 1));
    Set_ 1 (E2 BXor (E1 (URotl 52) (EV 1)) (EV 8));
    Set_ 0 (E2 BAdd (EV 0) (EV 7));
    Set_ 7 (E2 BXor (E1 (URotl 33) (EV 7)) (EV 0));
    Set_ 2 (E2 BAdd (EV 2) (EV 5));
    Set_ 5 (E2 BXor (E1 (URotl 4) (EV 5)) (EV 2));
    Set_ 4 (E2 BAdd (EV 4) (EV 3));
    Set_ 3 (E2 BXor (E1 (URotl 51) (EV 3)) (EV 4));
    Set_ 6 (E2 BAdd (EV 6) (EV 1));
    Set_ 1 (E2 BXor (E1 (URotl 13) (EV 1)) (EV 6));
    Set_ 12 (E2 BAdd (EV 12) (EV 15));
    Set_ 15 (E2 BXor (E1 (URotl 34) (EV 15)) (EV 12));
    Set_ 14 (E2 BAdd (EV 14) (EV 13));
    Set_ 13 (E2 BXor (E1 (URotl 41) (EV 13)) (EV 14));
    Set_ 8 (E2 BAdd (EV 8) (EV 11));
    Set_ 11 (E2 BXor (E1 (URotl 59) (EV 11)) (EV 8));
    Set_ 10 (E2 BAdd (EV 10) (EV 9));
    Set_ 9 (E2 BXor (E1 (URotl 17) (EV 9)) (EV 10));
    Set_ 0 (E2 BAdd (EV 0) (EV 15));
    Set_ 15 (E2 BXor (E1 (URotl 5) (EV 15)) (EV 0));
    Set_ 2 (E2 BAdd (EV 2) (EV 11));
    Set_ 11 (E2 BXor (E1 (URotl 20) (EV 11)) (EV 2));
    Set_ 6 (E2 BAdd (EV 6) (EV 13));
    Set_ 13 (E2 BXor (E1 (URotl 48) (EV 13)) (EV 6));
    Set_ 4 (E2 BAdd (EV 4) (EV 9));
    Set_ 9 (E2 BXor (E1 (URotl 41) (EV 9)) (EV 4));
    Set_ 14 (E2 BAdd (EV 14) (EV 1));
    Set_ 1 (E2 BXor (E1 (URotl 47) (EV 1)) (EV 14));
    Set_ 8 (E2 BAdd (EV 8) (EV 5));
    Set_ 5 (E2 BXor (E1 (URotl 28) (EV 5)) (EV 8));
    Set_ 10 (E2 BAdd (EV 10) (EV 3));
    Set_ 3 (E2 BXor (E1 (URotl 16) (EV 3)) (EV 10));
    Set_ 12 (E2 BAdd (EV 12) (EV 7));
    Set_ 7 (E2 BXor (E1 (URotl 25) (EV 7)) (EV 12))];
   [Set_ 1 (E2 BAdd (EV 1) (EV 26));
    Set_ 0 (E2 BAdd (EV 0) (E2 BAdd (EV 1) (EV 25)));
    Set_ 1 (E2 BXor (E1 (URotl 41) (EV 1)) (EV 0));
    Set_ 3 (E2 BAdd (EV 3) (EV 28));
    Set_ 2 (E2 BAdd (EV 2) (E2 BAdd (EV 3) (EV 27)));
    Set_ 3 (E2 BXor (E1 (URotl 9) (EV 3)) (EV 2));
    Set_ 5 (E2 BAdd (EV 5) (EV 30));
    Set_ 4 (E2 BAdd (EV 4) (E2 BAdd (EV 5) (EV 29)));
    Set_ 5 (E2 BXor (E1 (URotl 37) (EV 5)) (EV 4));
    Set_ 7 (E2 BAdd (EV 7) (EV 32));
    Set_ 6 (E2 BAdd (EV 6) (E2 BAdd (EV 7) (EV 31)));
    Set_ 7 (E2 BXor (E1 (URotl 31) (EV 7)) (EV 6));
    Set_ 9 (E2 BAdd (EV 9) (EV 17));
    Set_ 8 (E2 BAdd (EV 8) (E2 BAdd (EV 9) (EV 16)));
    Set_ 9 (E2 BXor (E1 (URotl 12) (EV 9)) (EV 8));
    Set_ 11 (E2 BAdd (EV 11) (EV 19));
    Set_ 10 (E2 BAdd (EV 10) (E2 BAdd (EV 11) (EV 18)));
    Set_ 11 (E2 BXor (E1 (URotl 47) (EV 11)) (EV 10));
    Set_ 13 (E2 BAdd (EV 13) (E2 BAdd (EV 21) (EV 33)));
    Set_ 12 (E2 BAdd (EV 12) (E2 BAdd (EV 13) (EV 20)));
    Set_ 13 (E2 BXor (E1 (URotl 44) (EV 13)) (EV 12));
    Set_ 15 (E2 BAdd (EV 15) (E2 BAdd (EV 23) (EC 9)));
    Set_ 14 (E2 BAdd (EV 14) (E2 BAdd (E2 BAdd (EV 15) (EV 22)) (EV 34)));
    Set_ 15 (E2 BXor (E1 (URotl 30) (EV 15)) (EV 14));
    Set_ 0 (E2 BAdd (EV 0) (EV 9));
    Set_ 9 (E2 BXor (E1 (URotl 16) (EV 9)) (EV 0));
    Set_ 2 (E2 BAdd (EV 2) (EV 13));
    Set_ 13 (E2 BXor (E1 (URotl 34) (EV 13)) (EV 2));
    Set_ 6 (E2 BAdd (EV 6) (EV 11));
    Set_ 11 (E2 BXor (E1 (URotl 56) (EV 11)) (EV 6));
    Set_ 4 (E2 BAdd (EV 4) (EV 15));
    Set_ 15 (E2 BXor (E1 (URotl 51) (EV 15)) (EV 4));
    Set_ 10 (E2 BAdd (EV 10) (EV 7));
    Set_ 7 (E2 BXor (E1 (URotl 4) (EV 7)) (EV 10));
    Set_ 12 (E2 BAdd (EV 12) (EV 3));
    Set_ 3 (E2 BXor (E1 (URotl 53) (EV 3)) (EV 12));
    Set_ 14 (E2 BAdd (EV 14) (EV 5));
    Set_ 5 (E2 BXor (E1 (URotl 42) (EV 5)) (EV 14));
    Set_ 8 (E2 BAdd (EV 8) (EV 1));
    Set_ 1 (E2 BXor (E1 (URotl 41) (EV 1)) (EV 8));
    Set_ 0 (E2 BAdd (EV 0) (EV 7));
    Set_ 7 (E2 BXor (E1 (URotl 31) (EV 7)) (EV 0));
    Set_ 2 (E2 BAdd (EV 2) (EV 5));
    Set_ 5 (E2 BXor (E1 (URotl 44) (EV 5)) (EV 2));
    Set_ 4 (E2 BAdd (EV 4) (EV 3));
    Set_ 3 (E2 BXor (E1 (URotl 47) (EV 3)) (EV 4));
    Set_ 6 (E2 BAdd (EV 6) (EV 1));
    Set_ 1 (E2 BXor (E1 (URotl 46) (EV 1)) (EV 6));
    Set_ 12 (E2 BAdd (EV 12) (EV 15));
    Set_ 15 (E2 BXor (E1 (URotl 19) (EV 15)) (EV 12));
    Set_ 14 (E2 BAdd (EV 14) (EV 13));
    Set_ 13 (E2 BXor (E1 (URotl 42) (EV 13)) (EV 14));
    Set_ 8 (E2 BAdd (EV 8) (EV 11));
    Set_ 11 (E2 BXor (E1 (URotl 44) (EV 11)) (EV 8));
    Set_ 10 (E2 BAdd (EV 10) (EV 9));
    Set_ 9 (E2 BXor (E1 (URotl 25) (EV 9)) (EV 10));
    Set_ 0 (E2 BAdd (EV 0) (EV 15));
    Set_ 15 (E2 BXor (E1 (URotl 9) (EV 15)) (EV 0));
    Set_ 2 (E2 BAdd (EV 2) (EV 11));
    Set_ 11 (E2 BXor (E1 (URotl 48) (EV 11)) (EV 2));
    Set_ 6 (E2 BAdd (EV 6) (EV 13));
    Set_ 13 (E2 BXor (E1 (URotl 35) (EV 13)) (EV 6));
    Set_ 4 (E2 BAdd (EV 4) (EV 9));
    Set_ 9 (E2 BXor (E1 (URotl 52) (EV 9)) (EV 4));
    Set_ 14 (E2 BAdd (EV 14) (EV 1));
    Set_ 1 (E2 BXor (E1 (URotl 23) (EV 1)) (EV 14));
    Set_ 8 (E2 BAdd (EV 8) (EV 5));
    Set_ 5 (E2 BXor (E1 (URotl 31) (EV 5)) (EV 8));
    Set_ 10 (E2 BAdd (EV 10) (EV 3));
    Set_ 3 (E2 BXor (E1 (URotl 37) (EV 3)) (EV 10));
    Set_ 12 (E2 BAdd (EV 12) (EV 7));
    Set_ 7 (E2 BXor (E1 (URotl 20) (EV 7)) (EV 12))];
   [Set_ 1 (E2 BAdd (EV 1) (EV 27));
    Set_ 0 (E2 BAdd (EV 0) (E2 BAdd (EV 1) (EV 26)));
    Set_ 1 (E2 BXor (E1 (URotl 24) (EV 1)) (EV 0));
    Set_ 3 (E2 BAdd (EV 3) (EV 29));
    Set_ 2 (E2 BAdd (EV 2) (E2 BAdd (EV 3) (EV 28)));
    Set_ 3 (E2 BXor (E1 (URotl 13) (EV 3)) (EV 2));
    Set_ 5 (E2 BAdd (EV 5) (EV 31));
    Set_ 4 (E2 BAdd (EV 4) (E2 BAdd (EV 5) (EV 30)));
    Set_ 5 (E2 BXor (E1 (URotl 8) (EV 5)) (EV 4));
    Set_ 7 (E2 BAdd (EV 7) (EV 16));
    Set_ 6 (E2 BAdd (EV 6) (E2 BAdd (EV 7) (EV 32)));
    Set_ 7 (E2 BXor (E1 (URotl 47) (EV 7)) (EV 6));
    Set_ 9 (E2 BAdd (EV 9) (EV 18));
    Set_ 8 (E2 BAdd (EV 8) (E2 BAdd (EV 9) (EV 17)));
    Set_ 9 (E2 BXor (E1 (URotl 8) (EV 9)) (EV 8));
    Set_ 11 (E2 BAdd (EV 11) (EV 20));
    Set_ 10 (E2 BAdd (EV 10) (E2 BAdd (EV 11) (EV 19)));
    Set_ 11 (E2 BXor (E1 (URotl 17) (EV 11)) (EV 10));
    Set_ 13 (E2 BAdd (EV 13) (E2 BAdd (EV 22) (EV 34)));
    Set_ 12 (E2 BAdd (EV 12) (E2 BAdd (EV 13) (EV 21)));
    Set_ 13 (E2 BXor (E1 (URotl 22) (EV 13)) (EV 12));
    Set_ 15 (E2 BAdd (EV 15) (E2 BAdd (EV 24) (EC 10)));
    Set_ 14 (E2 BAdd (EV 14) (E2 BAdd (E2 BAdd (EV 15) (EV 23)) (EV 35)));
    Set_ 15 (E2 BXor (E1 (URotl 37) (EV 15)) (EV 14));
    Set_ 0 (E2 BAdd (EV 0) (EV 9));
    Set_ 9 (E2 BXor (E1 (URotl 38) (EV 9)) (EV 0));
    Set_ 2 (E2 BAdd (EV 2) (EV 13));
    Set_ 13 (E2 BXor (E1 (URotl 19) (EV 13)) (EV 2));
    Set_ 6 (E2 BAdd (EV 6) (EV 11));
    Set_ 11 (E2 BXor (E1 (URotl 10) (EV 11)) (EV 6));
    Set_ 4 (E2 BAdd (EV 4) (EV 15));
    Set_ 15 (E2 BXor (E1 (URotl 55) (EV 15)) (EV 4));
    Set_ 10 (E2 BAdd (EV 10) (EV 7));
    Set_ 7 (E2 BXor (E1 (URotl 49) (EV 7)) (EV 10));
    Set_ 12 (E2 BAdd (EV 12) (EV 3));
    Set_ 3 (E2 BXor (E1 (URotl 18) (EV 3)) (EV 12));
    Set_ 14 (E2 BAdd (EV 14) (EV 5));
    Set_ 5 (E2 BXor (E1 (URotl 23) (EV 5)) (EV 14));
    Set_ 8 (E2 BAdd (EV 8) (EV 1));
    Set_ 1 (E2 BXor (E1 (URotl 52) (EV 1)) (EV 8));
    Set_ 0 (E2 BAdd (EV 0) (EV 7));
    Set_ 7 (E2 BXor (E1 (URotl 33) (EV 7)) (EV 0));
    Set_ 2 (E2 BAdd (EV 2) (EV 5));
    Set_ 5 (E2 BXor (E1 (URotl 4) (EV 5)) (EV 2));
    Set_ 4 (E2 BAdd (EV 4) (EV 3));
    Set_ 3 (E2 BXor (E1 (URotl 51) (EV 3)) (EV 4));
    Set_ 6 (E2 BAdd (EV 6) (EV 1));
    Set_ 1 (E2 BXor (E1 (URotl 13) (EV 1)) (EV 6));
    Set_ 12 (E2 BAdd (EV 12) (EV 15));
    Set_ 15 (E2 BXor (E1 (URotl 34) (EV 15)) (EV 12));
    Set_ 14 (E2 BAdd (EV 14) (EV 13));
    Set_ 13 (E2 BXor (E1 (URotl 41) (EV 13)) (EV 14));
    Set_ 8 (E2 BAdd (EV 8) (EV 11));
    Set_ 11 (E2 BXor (E1 (URotl 59) (EV 11)) (EV 8));
    Set_ 10 (E2 BAdd (EV 10) (EV 9));
    Set_ 9 (E2 BXor (E1 (URotl 17) (EV 9)) (EV 10));
    Set_ 0 (E2 BAdd (EV 0) (EV 15));
    Set_ 15 (E2 BXor (E1 (URotl 5) (EV 15)) (EV 0));
    Set_ 2 (E2 BAdd (EV 2) (EV 11));
    Set_ 11 (E2 BXor (E1 (URotl 20) (EV 11)) (EV 2));
    Set_ 6 (E2 BAdd (EV 6) (EV 13));
    Set_ 13 (E2 BXor (E1 (URotl 48) (EV 13)) (EV 6));
    Set_ 4 (E2 BAdd (EV 4) (EV 9));
    Set_ 9 (E2 BXor (E1 (URotl 41) (EV 9)) (EV 4));
    Set_ 14 (E2 BAdd (EV 14) (EV 1));
    Set_ 1 (E2 BXor (E1 (URotl 47) (EV 1)) (EV 14));
    Set_ 8 (E2 BAdd (EV 8) (EV 5));
    Set_ 5 (E2 BXor (E1 (URotl 28) (EV 5)) (EV 8));
    Set_ 10 (E2 BAdd (EV 10) (EV 3));
    Set_ 3 (E2 BXor (E1 (URotl 16) (EV 3)) (EV 10));
    Set_ 12 (E2 BAdd (EV 12) (EV 7));
    Set_ 7 (E2 BXor (E1 (URotl 25) (EV 7)) (EV 12))];
   [Set_ 1 (E2 BAdd (EV 1) (EV 28));
    Set_ 0 (E2 BAdd (EV 0) (E2 BAdd (EV 1) (EV 27)));
    Set_ 1 (E2 BXor (E1 (URotl 41) (EV 1)) (EV 0));
    Set_ 3 (E2 BAdd (EV 3) (EV 30));
    Set_ 2 (E2 BAdd (EV 2) (E2 BAdd (EV 3) (EV 29)));
    Set_ 3 (E2 BXor (E1 (URotl 9) (EV 3)) (EV 2));
    Set_ 5 (E2 BAdd (EV 5) (EV 32));
    Set_ 4 (E2 BAdd (EV 4) (E2 BAdd (EV 5) (EV 31)));
    Set_ 5 (E2 BXor (E1 (URotl 37) (EV 5)) (EV 4));
    Set_ 7 (E2 BAdd (EV 7) (EV 17));
    Set_ 6 (E2 BAdd (EV 6) (E2 BAdd (EV 7) (EV 16)));
    Set_ 7 (E2 BXor (E1 (URotl 31) (EV 7)) (EV 6));
    Set_ 9 (E2 BAdd (EV 9) (EV 19));
    Set_ 8 (E2 BAdd (EV 8) (E2 BAdd (EV 9) (EV 18)));
    Set_ 9 (E2 BXor (E1 (URotl 12) (EV 9)) (EV 8));
    Set_ 11 (E2 BAdd (EV 11) (EV 21));
    Set_ 10 (E2 BAdd (EV 10) (E2 BAdd (EV 11) (EV 20)));
    Set_ 11 (E2 BXor (E1 (URotl 47) (EV 11)) (EV 10));
    Set_ 13 (E2 BAdd (EV 13) (E2 BAdd (EV 23) (EV 35)));
    Set_ 12 (E2 BAdd (EV 12) (E2 BAdd (EV 13) (EV 22)));
    Set_ 13 (E2 BXor (E1 (URotl 44) (EV 13)) (EV 12));
    Set_ 15 (E2 BAdd (EV 15) (E2 BAdd (EV 25) (EC 11)));
    Set_ 14 (E2 BAdd (EV 14) (E2 BAdd (E2 BAdd (EV 15) (EV 24)) (EV 33)));
    Set_ 15 (E2 BXor (E1 (URotl 30) (EV 15)) (EV 14));
    Set_ 0 (E2 BAdd (EV 0) (EV 9));
    Set_ 9 (E2 BXor (E1 (URotl 16) (EV 9)) (EV 0));
    Set_ 2 (E2 BAdd (EV 2) (EV 13));
    Set_ 13 (E2 BXor (E1 (URotl 34) (EV 13)) (EV 2));
    Set_ 6 (E2 BAdd (EV 6) (EV 11));
    Set_ 11 (E2 BXor (E1 (URotl 56) (EV 11)) (EV 6));
    Set_ 4 (E2 BAdd (EV 4) (EV 15));
    Set_ 15 (E2 BXor (E1 (URotl 51) (EV 15)) (EV 4));
    Set_ 10 (E2 BAdd (EV 10) (EV 7));
    Set_ 7 (E2 BXor (E1 (URotl 4) (EV 7)) (EV 10));
    Set_ 12 (E2 BAdd (EV 12) (EV 3));
    Set_ 3 (E2 BXor (E1 (URotl 53) (EV 3)) (EV 12));
    Set_ 14 (E2 BAdd (EV 14) (EV 5));
    Set_ 5 (E2 BXor (E1 (URotl 42) (EV 5)) (EV 14));
    Set_ 8 (E2 BAdd (EV 8) (EV 1));
    Set_ 1 (E2 BXor (E1 (URotl 41) (EV 1)) (EV 8));
    Set_ 0 (E2 BAdd (EV 0) (EV 7));
    Set_ 7 (E2 BXor (E1 (URotl 31) (EV 7)) (EV 0));
    Set_ 2 (E2 BAdd (EV 2) (EV 5));
    Set_ 5 (E2 BXor (E1 (URotl 44) (EV 5)) (EV 2));
    Set_ 4 (E2 BAdd (EV 4) (EV 3));
    Set_ 3 (E2 BXor (E1 (URotl 47) (EV 3)) (EV 4));
    Set_ 6 (E2 BAdd (EV 6) (EV 1));
    Set_ 1 (E2 BXor (E1 (URotl 46) (EV 1)) (EV 6));
    Set_ 12 (E2 BAdd (EV 12) (EV 15));
    Set_ 15 (E2 BXor (E1 (URotl 19) (EV 15)) (EV 12));
    Set_ 14 (E2 BAdd (EV 14) (EV 13));
    Set_ 13 (E2 BXor (E1 (URotl 42) (EV 13)) (EV 14));
    Set_ 8 (E2 BAdd (EV 8) (EV 11));
    Set_ 11 (E2 BXor (E1 (URotl 44) (EV 11)) (EV 8));
    Set_ 10 (E2 BAdd (EV 10) (EV 9));
    Set_ 9 (E2 BXor (E1 (URotl 25) (EV 9)) (EV 10));
    Set_ 0 (E2 BAdd (EV 0) (EV 15));
    Set_ 15 (E2 BXor (E1 (URotl 9) (EV 15)) (EV 0));
    Set_ 2 (E2 BAdd (EV 2) (EV 11));
    Set_ 11 (E2 BXor (E1 (URotl 48) (EV 11)) (EV 2));
    Set_ 6 (E2 BAdd (EV 6) (EV 13));
    Set_ 13 (E2 BXor (E1 (URotl 35) (EV 13)) (EV 6));
    Set_ 4 (E2 BAdd (EV 4) (EV 9));
    Set_ 9 (E2 BXor (E1 (URotl 52) (EV 9)) (EV 4));
    Set_ 14 (E2 BAdd (EV 14) (EV 1));
    Set_ 1 (E2 BXor (E1 (URotl 23) (EV 1)) (EV 14));
    Set_ 8 (E2 BAdd (EV 8) (EV 5));
    Set_ 5 (E2 BXor (E1 (URotl 31) (EV 5)) (EV 8));
    Set_ 10 (E2 BAdd (EV 10) (EV 3));
    Set_ 3 (E2 BXor (E1 (URotl 37) (EV 3)) (EV 10));
    Set_ 12 (E2 BAdd (EV 12) (EV 7));
    Set_ 7 (E2 BXor (E1 (URotl 20) (EV 7)) (EV 12))];
   [Set_ 1 (E2 BAdd (EV 1) (EV 29));
    Set_ 0 (E2 BAdd (EV 0) (E2 BAdd (EV 1) (EV 28)));
    Set_ 1 (E2 BXor (E1 (URotl 24) (EV 1)) (EV 0));
    Set_ 3 (E2 BAdd (EV 3) (EV 31));
    Set_ 2 (E2 BAdd (EV 2) (E2 BAdd (EV 3) (EV 30)));
    Set_ 3 (E2 BXor (E1 (URotl 13) (EV 3)) (EV 2));
    Set_ 5 (E2 BAdd (EV 5) (EV 16));
    Set_ 4 (E2 BAdd (EV 4) (E2 BAdd (EV 5) (EV 32)));
    Set_ 5 (E2 BXor (E1 (URotl 8) (EV 5)) (EV 4));
    Set_ 7 (E2 BAdd (EV 7) (EV 18));
    Set_ 6 (E2 BAdd (EV 6) (E2 BAdd (EV 7) (EV 17)));
    Set_ 7 (E2 BXor (E1 (URotl 47) (EV 7)) (EV 6));
    Set_ 9 (E2 BAdd (EV 9) (EV 20));
    Set_ 8 (E2 BAdd (EV 8) (E2 BAdd (EV 9) (EV 19)));
    Set_ 9 (E2 BXor (E1 (URotl 8) (EV 9)) (EV 8));
    Set_ 11 (E2 BAdd (EV 11) (EV 22));
    Set_ 10 (E2 BAdd (EV 10) (E2 BAdd (EV 11) (EV 21)));
    Set_ 11 (E2 BXor (E1 (URotl 17) (EV 11)) (EV 10));
    Set_ 13 (E2 BAdd (EV 13) (E2 BAdd (EV 24) (EV 33)));
    Set_ 12 (E2 BAdd (EV 12) (E2 BAdd (EV 13) (EV 23)));
    Set_ 13 (E2 BXor (E1 (URotl 22) (EV 13)) (EV 12));
    Set_ 15 (E2 BAdd (EV 15) (E2 BAdd (EV 26) (EC 12)));
    Set_ 14 (E2 BAdd (EV 14) (E2 BAdd (E2 BAdd (EV 15) (EV 25)) (EV 34)));
    Set_ 15 (E2 BXor (E1 (URotl 37) (EV 15)) (EV 14));
    Set_ 0 (E2 BAdd (EV 0) (EV 9));
    Set_ 9 (E2 BXor (E1 (URotl 38) (EV 9)) (EV 0));
    Set_ 2 (E2 BAdd (EV 2) (EV 13));
    Set_ 13 (E2 BXor (E1 (URotl 19) (EV 13)) (EV 2));
    Set_ 6 (E2 BAdd (EV 6) (EV 11));
    Set_ 11 (E2 BXor (E1 (URotl 10) (EV 11)) (EV 6));
    Set_ 4 (E2 BAdd (EV 4) (EV 15));
    Set_ 15 (E2 BXor (E1 (URotl 55) (EV 15)) (EV 4));
    Set_ 10 (E2 BAdd (EV 10) (EV 7));
    Set_ 7 (E2 BXor (E1 (URotl 49) (EV 7)) (EV 10));
    Set_ 12 (E2 BAdd (EV 12) (EV 3));
    Set_ 3 (E2 BXor (E1 (URotl 18) (EV 3)) (EV 12));
    Set_ 14 (E2 BAdd (EV 14) (EV 5));
    Set_ 5 (E2 BXor (E1 (URotl 23) (EV 5)) (EV 14));
    Set_ 8 (E2 BAdd (EV 8) (EV 1));
    Set_ 1 (E2 BXor (E1 (URotl 52) (EV 1)) (EV 8));
    Set_ 0 (E2 BAdd (EV 0) (EV 7));
    Set_ 7 (E2 BXor (E1 (URotl 33) (EV 7)) (EV 0));
    Set_ 2 (E2 BAdd (EV 2) (EV 5));
    Set_ 5 (E2 BXor (E1 (URotl 4) (EV 5)) (EV 2));
    Set_ 4 (E2 BAdd (EV 4) (EV 3));
    Set_ 3 (E2 BXor (E1 (URotl 51) (EV 3)) (EV 4));
    Set_ 6 (E2 BAdd (EV 6) (EV 1));
    Set_ 1 (E2 BXor (E1 (URotl 13) (EV 1)) (EV 6));
    Set_ 12 (E2 BAdd (EV 12) (EV 15));
    Set_ 15 (E2 BXor (E1 (URotl 34) (EV 15)) (EV 12));
    Set_ 14 (E2 BAdd (EV 14) (EV 13));
    Set_ 13 (E2 BXor (E1 (URotl 41) (EV 13)) (EV 14));
    Set_ 8 (E2 BAdd (EV 8) (EV 11));
    Set_ 11 (E2 BXor (E1 (URotl 59) (EV 11)) (EV 8));
    Set_ 10 (E2 BAdd (EV 10) (EV 9));
    Set_ 9 (E2 BXor (E1 (URotl 17) (EV 9)) (EV 10));
    Set_ 0 (E2 BAdd (EV 0) (EV 15));
    Set_ 15 (E2 BXor (E1 (URotl 5) (EV 15)) (EV 0));
    Set_ 2 (E2 BAdd (EV 2) (EV 11));
    Set_ 11 (E2 BXor (E1 (URotl 20) (EV 11)) (EV 2));
    Set_ 6 (E2 BAdd (EV 6) (EV 13));
    Set_ 13 (E2 BXor (E1 (URotl 48) (EV 13)) (EV 6));
    Set_ 4 (E2 BAdd (EV 4) (EV 9));
    Set_ 9 (E2 BXor (E1 (URotl 41) (EV 9)) (EV 4));
    Set_ 14 (E2 BAdd (EV 14) (EV 1));
    Set_ 1 (E2 BXor (E1 (URotl 47) (EV 1)) (EV 14));
    Set_ 8 (E2 BAdd (EV 8) (EV 5));
    Set_ 5 (E2 BXor (E1 (URotl 28) (EV 5)) (EV 8));
    Set_ 10 (E2 BAdd (EV 10) (EV 3));
    Set_ 3 (E2 BXor (E1 (URotl 16) (EV 3)) (EV 10));
    Set_ 12 (E2 BAdd (EV 12) (EV 7));
    Set_ 7 (E2 BXor (E1 (URotl 25) (EV 7)) (EV 12))];
   [Set_ 1 (E2 BAdd (EV 1) (EV 30));
    Set_ 0 (E2 BAdd (EV 0) (E2 BAdd (EV 1) (EV 29)));
    Set_ 1 (E2 BXor (E1 (URotl 41) (EV 1)) (EV 0));
    Set_ 3 (E2 BAdd (EV 3) (EV 32));
    Set_ 2 (E2 BAdd (EV 2) (E2 BAdd (EV 3) (EV 31)));
    Set_ 3 (E2 BXor (E1 (URotl 9) (EV 3)) (EV 2));
    Set_ 5 (E2 BAdd (EV 5) (EV 17));
    Set_ 4 (E2 BAdd (EV 4) (E2 BAdd (EV 5) (EV 16)));
    Set_ 5 (E2 BXor (E1 (URotl 37) (EV 5)) (EV 4));
    Set_ 7 (E2 BAdd (EV 7) (EV 19));
    Set_ 6 (E2 BAdd (EV 6) (E2 BAdd (EV 7) (EV 18)));
    Set_ 7 (E2 BXor (E1 (URotl 31) (EV 7)) (EV 6));
    Set_ 9 (E2 BAdd (EV 9) (EV 21));
    Set_ 8 (E2 BAdd (EV 8) (E2 BAdd (EV 9) (EV 20)));
    Set_ 9 (E2 BXor (E1 (URotl 12) (EV 9)) (EV 8));
    Set_ 11 (E2 BAdd (EV 11) (EV 23));
    Set_ 10 (E2 BAdd (EV 10) (E2 BAdd (EV 11) (EV 22)));
    Set_ 11 (E2 BXor (E1 (URotl 47) (EV 11)) (EV 10));
    Set_ 13 (E2 BAdd (EV 13) (E2 BAdd (EV 25) (EV 34)));
    Set_ 12 (E2 BAdd (EV 12) (E2 BAdd (EV 13) (EV 24)));
    Set_ 13 (E2 BXor (E1 (URotl 44) (EV 13)) (EV 12));
    Set_ 15 (E2 BAdd (EV 15) (E2 BAdd (EV 27) (EC 13)));
    Set_ 14 (E2 BAdd (EV 14) (E2 BAdd (E2 BAdd (EV 15) (EV 26)) (EV 35)));
    Set_ 15 (E2 BXor (E1 (URotl 30) (EV 15)) (EV 14));
    Set_ 0 (E2 BAdd (EV 0) (EV 9));
    Set_ 9 (E2 BXor (E1 (URotl 16) (EV 9)) (EV 0));
    Set_ 2 (E2 BAdd (EV 2) (EV 13));
    Set_ 13 (E2 BXor (E1 (URotl 34) (EV 13)) (EV 2));
    Set_ 6 (E2 BAdd (EV 6) (EV 11));
    Set_ 11 (E2 BXor (E1 (URotl 56) (EV 11)) (EV 6));
    Set_ 4 (E2 BAdd (EV 4) (EV 15));
    Set_ 15 (E2 BXor (E1 (URotl 51) (EV 15)) (EV 4));
    Set_ 10 (E2 BAdd (EV 10) (EV 7));
    Set_ 7 (E2 BXor (E1 (URotl 4) (EV 7)) (EV 10));
    Set_ 12 (E2 BAdd (EV 12) (EV 3));
    Set_ 3 (E2 BXor (E1 (URotl 53) (EV 3)) (EV 12));
    Set_ 14 (E2 BAdd (EV 14) (EV 5));
    Set_ 5 (E2 BXor (E1 (URotl 42) (EV 5)) (EV 14));
    Set_ 8 (E2 BAdd (EV 8) (EV 1));
    Set_ 1 (E2 BXor (E1 (URotl 41) (EV 1)) (EV 8));
    Set_ 0 (E2 BAdd (EV 0) (EV 7));
    Set_ 7 (E2 BXor (E1 (URotl 31) (EV 7)) (EV 0));
    Set_ 2 (E2 BAdd (EV 2) (EV 5));
    Set_ 5 (E2 BXor (E1 (URotl 44) (EV 5)) (EV 2));
    Set_ 4 (E2 BAdd (EV 4) (EV 3));
    Set_ 3 (E2 BXor (E1 (URotl 47) (EV 3)) (EV 4));
    Set_ 6 (E2 BAdd (EV 6) (EV 1));
    Set_ 1 (E2 BXor (E1 (URotl 46) (EV 1)) (EV 6));
    Set_ 12 (E2 BAdd (EV 12) (EV 15));
    Set_ 15 (E2 BXor (E1 (URotl 19) (EV 15)) (EV 12));
    Set_ 14 (E2 BAdd (EV 14) (EV 13));
    Set_ 13 (E2 BXor (E1 (URotl 42) (EV 13)) (EV 14));
    Set_ 8 (E2 BAdd (EV 8) (EV 11));
    Set_ 11 (E2 BXor (E1 (URotl 44) (EV 11)) (EV 8));
    Set_ 10 (E2 BAdd (EV 10) (EV 9));
    Set_ 9 (E2 BXor (E1 (URotl 25) (EV 9)) (EV 10));
    Set_ 0 (E2 BAdd (EV 0) (EV 15));
    Set_ 15 (E2 BXor (E1 (URotl 9) (EV 15)) (EV 0));
    Set_ 2 (E2 BAdd (EV 2) (EV 11));
    Set_ 11 (E2 BXor (E1 (URotl 48) (EV 11)) (EV 2));
    Set_ 6 (E2 BAdd (EV 6) (EV 13));
    Set_ 13 (E2 BXor (E1 (URotl 35) (EV 13)) (EV 6));
    Set_ 4 (E2 BAdd (EV 4) (EV 9));
    Set_ 9 (E2 BXor (E1 (URotl 52) (EV 9)) (EV 4));
    Set_ 14 (E2 BAdd (EV 14) (EV 1));
    Set_ 1 (E2 BXor (E1 (URotl 23) (EV 1)) (EV 14));
    Set_ 8 (E2 BAdd (EV 8) (EV 5));
    Set_ 5 (E2 BXor (E1 (URotl 31) (EV 5)) (EV 8));
    Set_ 10 (E2 BAdd (EV 10) (EV 3));
    Set_ 3 (E2 BXor (E1 (URotl 37) (EV 3)) (EV 10));
    Set_ 12 (E2 BAdd (EV 12) (EV 7));
    Set_ 7 (E2 BXor (E1 (URotl 20) (EV 7)) (EV 12))];
   [Set_ 1 (E2 BAdd (EV 1) (EV 31));
    Set_ 0 (E2 BAdd (EV 0) (E2 BAdd (EV 1) (EV 30)));
    Set_ 1 (E2 BXor (E1 (URotl 24) (EV 1)) (EV 0));
    Set_ 3 (E2 BAdd (EV 3) (EV 16));
    Set_ 2 (E2 BAdd (EV 2) (E2 BAdd (EV 3) (EV 32)));
    Set_ 3 (E2 BXor (E1 (URotl 13) (EV 3)) (EV 2));
    Set_ 5 (E2 BAdd (EV 5) (EV 18));
    Set_ 4 (E2 BAdd (EV 4) (E2 BAdd (EV 5) (EV 17)));
    Set_ 5 (E2 BXor (E1 (URotl 8) (EV 5)) (EV 4));
    Set_ 7 (E2 BAdd (EV 7) (EV 20));
    Set_ 6 (E2 BAdd (EV 6) (E2 BAdd (EV 7) (EV 19)));
    Set_ 7 (E2 BXor (E1 (URotl 47) (EV 7)) (EV 6));
    Set_ 9 (E2 BAdd (EV 9) (EV 22));
    Set_ 8 (E2 BAdd (EV 8) (E2 BAdd (EV 9) (EV 21)));
    Set_ 9 (E2 BXor (E1 (URotl 8) (EV 9)) (EV 8));
    Set_ 11 (E2 BAdd (EV 11) (EV 24));
    Set_ 10 (E2 BAdd (EV 10) (E2 BAdd (EV 11) (EV 23)));
    Set_ 11 (E2 BXor (E1 (URotl 17) (EV 11)) (EV 10));
    Set_ 13 (E2 BAdd (EV 13) (E2 BAdd (EV 26) (EV 35)));
    Set_ 12 (E2 BAdd (EV 12) (E2 BAdd (EV 13) (EV 25)));
    Set_ 13 (E2 BXor (E1 (URotl 22) (EV 13)) (EV 12));
    Set_ 15 (E2 BAdd (EV 15) (E2 BAdd (EV 28) (EC 14)));
    Set_ 14 (E2 BAdd (EV 14) (E2 BAdd (E2 BAdd (EV 15) (EV 27)) (EV 33)));
    Set_ 15 (E2 BXor (E1 (URotl 37) (EV 15)) (EV 14));
    Set_ 0 (E2 BAdd (EV 0) (EV 9));
    Set_ 9 (E2 BXor (E1 (URotl 38) (EV 9)) (EV 0));
    Set_ 2 (E2 BAdd (EV 2) (EV 13));
    Set_ 13 (E2 BXor (E1 (URotl 19) (EV 13)) (EV 2));
    Set_ 6 (E2 BAdd (EV 6) (EV 11));
    Set_ 11 (E2 BXor (E1 (URotl 10) (EV 11)) (EV 6));
    Set_ 4 (E2 BAdd (EV 4) (EV 15));
    Set_ 15 (E2 BXor (E1 (URotl 55) (EV 15)) (EV 4));
    Set_ 10 (E2 BAdd (EV 10) (EV 7));
    Set_ 7 (E2 BXor (E1 (URotl 49) (EV 7)) (EV 10));
    Set_ 12 (E2 BAdd (EV 12) (EV 3));
    Set_ 3 (E2 BXor (E1 (URotl 18) (EV 3)) (EV 12));
    Set_ 14 (E2 BAdd (EV 14) (EV 5));
    Set_ 5 (E2 BXor (E1 (URotl 23) (EV 5)) (EV 14));
    Set_ 8 (E2 BAdd (EV 8) (EV 1));
    Set_ 1 (E2 BXor (E1 (URotl 52) (EV 1)) (EV 8));
    Set_ 0 (E2 BAdd (EV 0) (EV 7));
    Set_ 7 (E2 BXor (E1 (URotl 33) (EV 7)) (EV 0));
    Set_ 2 (E2 BAdd (EV 2) (EV 5));
    Set_ 5 (E2 BXor (E1 (URotl 4) (EV 5)) (EV 2));
    Set_ 4 (E2 BAdd (EV 4) (EV 3));
    Set_ 3 (E2 BXor (E1 (URotl 51) (EV 3)) (EV 4));
    Set_ 6 (E2 BAdd (EV 6) (EV 1));
    Set_ 1 (E2 BXor (E1 (URotl 13) (EV 1)) (EV 6));
    Set_ 12 (E2 BAdd (EV 12) (EV 15));
    Set_ 15 (E2 BXor (E1 (URotl 34) (EV 15)) (EV 12));
    Set_ 14 (E2 BAdd (EV 14) (EV 13));
    Set_ 13 (E2 BXor (E1 (URotl 41) (EV 13)) (EV 14));
    Set_ 8 (E2 BAdd (EV 8) (EV 11));
    Set_ 11 (E2 BXor (E1 (URotl 59) (EV 11)) (EV 8));
    Set_ 10 (E2 BAdd (EV 10) (EV 9));
    Set_ 9 (E2 BXor (E1 (URotl 17) (EV 9)) (EV 10));
    Set_ 0 (E2 BAdd (EV 0) (EV 15));
    Set_ 15 (E2 BXor (E1 (URotl 5) (EV 15)) (EV 0));
    Set_ 2 (E2 BAdd (EV 2) (EV 11));
    Set_ 11 (E2 BXor (E1 (URotl 20) (EV 11)) (EV 2));
    Set_ 6 (E2 BAdd (EV 6) (EV 13));
    Set_ 13 (E2 BXor (E1 (URotl 48) (EV 13)) (EV 6));
    Set_ 4 (E2 BAdd (EV 4) (EV 9));
    Set_ 9 (E2 BXor (E1 (URotl 41) (EV 9)) (EV 4));
    Set_ 14 (E2 BAdd (EV 14) (EV 1));
    Set_ 1 (E2 BXor (E1 (URotl 47) (EV 1)) (EV 14));
    Set_ 8 (E2 BAdd (EV 8) (EV 5));
    Set_ 5 (E2 BXor (E1 (URotl 28) (EV 5)) (EV 8));
    Set_ 10 (E2 BAdd (EV 10) (EV 3));
    Set_ 3 (E2 BXor (E1 (URotl 16) (EV 3)) (EV 10));
    Set_ 12 (E2 BAdd (EV 12) (EV 7));
    Set_ 7 (E2 BXor (E1 (URotl 25) (EV 7)) (EV 12))];
   [Set_ 1 (E2 BAdd (EV 1) (EV 32));
    Set_ 0 (E2 BAdd (EV 0) (E2 BAdd (EV 1) (EV 31)));
    Set_ 1 (E2 BXor (E1 (URotl 41) (EV 1)) (EV 0));
    Set_ 3 (E2 BAdd (EV 3) (EV 17));
    Set_ 2 (E2 BAdd (EV 2) (E2 BAdd (EV 3) (EV 16)));
    Set_ 3 (E2 BXor (E1 (URotl 9) (EV 3)) (EV 2));
    Set_ 5 (E2 BAdd (EV 5) (EV 19));
    Set_ 4 (E2 BAdd (EV 4) (E2 BAdd (EV 5) (EV 18)));
    Set_ 5 (E2 BXor (E1 (URotl 37) (EV 5)) (EV 4));
    Set_ 7 (E2 BAdd (EV 7) (EV 21));
    Set_ 6 (E2 BAdd (EV 6) (E2 BAdd (EV 7) (EV 20)));
    Set_ 7 (E2 BXor (E1 (URotl 31) (EV 7)) (EV 6));
    Set_ 9 (E2 BAdd (EV 9) (EV 23));
    Set_ 8 (E2 BAdd (EV 8) (E2 BAdd (EV 9) (EV 22)));
    Set_ 9 (E2 BXor (E1 (URotl 12) (EV 9)) (EV 8));
    Set_ 11 (E2 BAdd (EV 11) (EV 25));
    Set_ 10 (E2 BAdd (EV 10) (E2 BAdd (EV 11) (EV 24)));
    Set_ 11 (E2 BXor (E1 (URotl 47) (EV 11)) (EV 10));
    Set_ 13 (E2 BAdd (EV 13) (E2 BAdd (EV 27) (EV 33)));
    Set_ 12 (E2 BAdd (EV 12) (E2 BAdd (EV 13) (EV 26)));
    Set_ 13 (E2 BXor (E1 (URotl 44) (EV 13)) (EV 12));
    Set_ 15 (E2 BAdd (EV 15) (E2 BAdd (EV 29) (EC 15)));
    Set_ 14 (E2 BAdd (EV 14) (E2 BAdd (E2 BAdd (EV 15) (EV 28)) (EV 34)));
    Set_ 15 (E2 BXor (E1 (URotl 30) (EV 15)) (EV 14));
    Set_ 0 (E2 BAdd (EV 0) (EV 9));
    Set_ 9 (E2 BXor (E1 (URotl 16) (EV 9)) (EV 0));
    Set_ 2 (E2 BAdd (EV 2) (EV 13));
    Set_ 13 (E2 BXor (E1 (URotl 34) (EV 13)) (EV 2));
    Set_ 6 (E2 BAdd (EV 6) (EV 11));
    Set_ 11 (E2 BXor (E1 (URotl 56) (EV 11)) (EV 6));
    Set_ 4 (E2 BAdd (EV 4) (EV 15));
    Set_ 15 (E2 BXor (E1 (URotl 51) (EV 15)) (EV 4));
    Set_ 10 (E2 BAdd (EV 10) (EV 7));
    Set_ 7 (E2 BXor (E1 (URotl 4) (EV 7)) (EV 10));
    Set_ 12 (E2 BAdd (EV 12) (EV 3));
    Set_ 3 (E2 BXor (E1 (URotl 53) (EV 3)) (EV 12));
    Set_ 14 (E2 BAdd (EV 14) (EV 5));
    Set_ 5 (E2 BXor (E1 (URotl 42) (EV 5)) (EV 14));
    Set_ 8 (E2 BAdd (EV 8) (EV 1));
    Set_ 1 (E2 BXor (E1 (URotl 41) (EV 1)) (EV 8));
    Set_ 0 (E2 BAdd (EV 0) (EV 7));
    Set_ 7 (E2 BXor (E1 (URotl 31) (EV 7)) (EV 0));
    Set_ 2 (E2 BAdd (EV 2) (EV 5));
    Set_ 5 (E2 BXor (E1 (URotl 44) (EV 5)) (EV 2));
    Set_ 4 (E2 BAdd (EV 4) (EV 3));
    Set_ 3 (E2 BXor (E1 (URotl 47) (EV 3)) (EV 4));
    Set_ 6 (E2 BAdd (EV 6) (EV 1));
    Set_ 1 (E2 BXor (E1 (URotl 46) (EV 1)) (EV 6));
    Set_ 12 (E2 BAdd (EV 12) (EV 15));
    Set_ 15 (E2 BXor (E1 (URotl 19) (EV 15)) (EV 12));
    Set_ 14 (E2 BAdd (EV 14) (EV 13));
    Set_ 13 (E2 BXor (E1 (URotl 42) (EV 13)) (EV 14));
    Set_ 8 (E2 BAdd (EV 8) (EV 11));
    Set_ 11 (E2 BXor (E1 (URotl 44) (EV 11)) (EV 8));
    Set_ 10 (E2 BAdd (EV 10) (EV 9));
    Set_ 9 (E2 BXor (E1 (URotl 25) (EV 9)) (EV 10));
    Set_ 0 (E2 BAdd (EV 0) (EV 15));
    Set_ 15 (E2 BXor (E1 (URotl 9) (EV 15)) (EV 0));
    Set_ 2 (E2 BAdd (EV 2) (EV 11));
    Set_ 11 (E2 BXor (E1 (URotl 48) (EV 11)) (EV 2));
    Set_ 6 (E2 BAdd (EV 6) (EV 13));
    Set_ 13 (E2 BXor (E1 (URotl 35) (EV 13)) (EV 6));
    Set_ 4 (E2 BAdd (EV 4) (EV 9));
    Set_ 9 (E2 BXor (E1 (URotl 52) (EV 9)) (EV 4));
    Set_ 14 (E2 BAdd (EV 14) (EV 1));
    Set_ 1 (E2 BXor (E1 (URotl 23) (EV 1)) (EV 14));
    Set_ 8 (E2 BAdd (EV 8) (EV 5));
    Set_ 5 (E2 BXor (E1 (URotl 31) (EV 5)) (EV 8));
    Set_ 10 (E2 BAdd (EV 10) (EV 3));
    Set_ 3 (E2 BXor (E1 (URotl 37) (EV 3)) (EV 10));
    Set_ 12 (E2 BAdd (EV 12) (EV 7));
    Set_ 7 (E2 BXor (E1 (URotl 20) (EV 7)) (EV 12))];
   [Set_ 1 (E2 BAdd (EV 1) (EV 16));
    Set_ 0 (E2 BAdd (EV 0) (E2 BAdd (EV 1) (EV 32)));
    Set_ 1 (E2 BXor (E1 (URotl 24) (EV 1)) (EV 0));
    Set_ 3 (E2 BAdd (EV 3) (EV 18));
    Set_ 2 (E2 BAdd (EV 2) (E2 BAdd (EV 3) (EV 17)));
    Set_ 3 (E2 BXor (E1 (URotl 13) (EV 3)) (EV 2));
    Set_ 5 (E2 BAdd (EV 5) (EV 20));
    Set_ 4 (E2 BAdd (EV 4) (E2 BAdd (EV 5) (EV 19)));
    Set_ 5 (E2 BXor (E1 (URotl 8) (EV 5)) (EV 4));
    Set_ 7 (E2 BAdd (EV 7) (EV 22));
    Set_ 6 (E2 BAdd (EV 6) (E2 BAdd (EV 7) (EV 21)));
    Set_ 7 (E2 BXor (E1 (URotl 47) (EV 7)) (EV 6));
    Set_ 9 (E2 BAdd (EV 9) (EV 24));
    Set_ 8 (E2 BAdd (EV 8) (E2 BAdd (EV 9) (EV 23)));
    Set_ 9 (E2 BXor (E1 (URotl 8) (EV 9)) (EV 8));
    Set_ 11 (E2 BAdd (EV 11) (EV 26));
    Set_ 10 (E2 BAdd (EV 10) (E2 BAdd (EV 11) (EV 25)));
    Set_ 11 (E2 BXor (E1 (URotl 17) (EV 11)) (EV 10));
    Set_ 13 (E2 BAdd (EV 13) (E2 BAdd (EV 28) (EV 34)));
    Set_ 12 (E2 BAdd (EV 12) (E2 BAdd (EV 13) (EV 27)));
    Set_ 13 (E2 BXor (E1 (URotl 22) (EV 13)) (EV 12));
    Set_ 15 (E2 BAdd (EV 15) (E2 BAdd (EV 30) (EC 16)));
    Set_ 14 (E2 BAdd (EV 14) (E2 BAdd (E2 BAdd (EV 15) (EV 29)) (EV 35)));
    Set_ 15 (E2 BXor (E1 (URotl 37) (EV 15)) (EV 14));
    Set_ 0 (E2 BAdd (EV 0) (EV 9));
    Set_ 9 (E2 BXor (E1 (URotl 38) (EV 9)) (EV 0));
    Set_ 2 (E2 BAdd (EV 2) (EV 13));
    Set_ 13 (E2 BXor (E1 (URotl 19) (EV 13)) (EV 2));
    Set_ 6 (E2 BAdd (EV 6) (EV 11));
    Set_ 11 (E2 BXor (E1 (URotl 10) (EV 11)) (EV 6));
    Set_ 4 (E2 BAdd (EV 4) (EV 15));
    Set_ 15 (E2 BXor (E1 (URotl 55) (EV 15)) (EV 4));
    Set_ 10 (E2 BAdd (EV 10) (EV 7));
    Set_ 7 (E2 BXor (E1 (URotl 49) (EV 7)) (EV 10));
    Set_ 12 (E2 BAdd (EV 12) (EV 3));
    Set_ 3 (E2 BXor (E1 (URotl 18) (EV 3)) (EV 12));
    Set_ 14 (E2 BAdd (EV 14) (EV 5));
    Set_ 5 (E2 BXor (E1 (URotl 23) (EV 5)) (EV 14));
    Set_ 8 (E2 BAdd (EV 8) (EV 1));
    Set_ 1 (E2 BXor (E1 (URotl 52) (EV 1)) (EV 8));
    Set_ 0 (E2 BAdd (EV 0) (EV 7));
    Set_ 7 (E2 BXor (E1 (URotl 33) (EV 7)) (EV 0));
    Set_ 2 (E2 BAdd (EV 2) (EV 5));
    Set_ 5 (E2 BXor (E1 (URotl 4) (EV 5)) (EV 2));
    Set_ 4 (E2 BAdd (EV 4) (EV 3));
    Set_ 3 (E2 BXor (E1 (URotl 51) (EV 3)) (EV 4));
    Set_ 6 (E2 BAdd (EV 6) (EV 1));
    Set_ 1 (E2 BXor (E1 (URotl 13) (EV 1)) (EV 6));
    Set_ 12 (E2 BAdd (EV 12) (EV 15));
    Set_ 15 (E2 BXor (E1 (URotl 34) (EV 15)) (EV 12));
    Set_ 14 (E2 BAdd (EV 14) (EV 13));
    Set_ 13 (E2 BXor (E1 (URotl 41) (EV 13)) (EV 14));
    Set_ 8 (E2 BAdd (EV 8) (EV 11));
    Set_ 11 (E2 BXor (E1 (URotl 59) (EV 11)) (EV 8));
    Set_ 10 (E2 BAdd (EV 10) (EV 9));
    Set_ 9 (E2 BXor (E1 (URotl 17) (EV 9)) (EV 10));
    Set_ 0 (E2 BAdd (EV 0) (EV 15));
    Set_ 15 (E2 BXor (E1 (URotl 5) (EV 15)) (EV 0));
    Set_ 2 (E2 BAdd (EV 2) (EV 11));
    Set_ 11 (E2 BXor (E1 (URotl 20) (EV 11)) (EV 2));
    Set_ 6 (E2 BAdd (EV 6) (EV 13));
    Set_ 13 (E2 BXor (E1 (URotl 48) (EV 13)) (EV 6));
    Set_ 4 (E2 BAdd (EV 4) (EV 9));
    Set_ 9 (E2 BXor (E1 (URotl 41) (EV 9)) (EV 4));
    Set_ 14 (E2 BAdd (EV 14) (EV 1));
    Set_ 1 (E2 BXor (E1 (URotl 47) (EV 1)) (EV 14));
    Set_ 8 (E2 BAdd (EV 8) (EV 5));
    Set_ 5 (E2 BXor (E1 (URotl 28) (EV 5)) (EV 8));
    Set_ 10 (E2 BAdd (EV 10) (EV 3));
    Set_ 3 (E2 BXor (E1 (URotl 16) (EV 3)) (EV 10));
    Set_ 12 (E2 BAdd (EV 12) (EV 7));
    Set_ 7 (E2 BXor (E1 (URotl 25) (EV 7)) (EV 12))];
   [Set_ 1 (E2 BAdd (EV 1) (EV 17));
    Set_ 0 (E2 BAdd (EV 0) (E2 BAdd (EV 1) (EV 16)));
    Set_ 1 (E2 BXor (E1 (URotl 41) (EV 1)) (EV 0));
    Set_ 3 (E2 BAdd (EV 3) (EV 19));
    Set_ 2 (E2 BAdd (EV 2) (E2 BAdd (EV 3) (EV 18)));
    Set_ 3 (E2 BXor (E1 (URotl 9) (EV 3)) (EV 2));
    Set_ 5 (E2 BAdd (EV 5) (EV 21));
    Set_ 4 (E2 BAdd (EV 4) (E2 BAdd (EV 5) (EV 20)));
    Set_ 5 (E2 BXor (E1 (URotl 37) (EV 5)) (EV 4));
    Set_ 7 (E2 BAdd (EV 7) (EV 23));
    Set_ 6 (E2 BAdd (EV 6) (E2 BAdd (EV 7) (EV 22)));
    Set_ 7 (E2 BXor (E1 (URotl 31) (EV 7)) (EV 6));
    Set_ 9 (E2 BAdd (EV 9) (EV 25));
    Set_ 8 (E2 BAdd (EV 8) (E2 BAdd (EV 9) (EV 24)));
    Set_ 9 (E2 BXor (E1 (URotl 12) (EV 9)) (EV 8));
    Set_ 11 (E2 BAdd (EV 11) (EV 27));
    Set_ 10 (E2 BAdd (EV 10) (E2 BAdd (EV 11) (EV 26)));
    Set_ 11 (E2 BXor (E1 (URotl 47) (EV 11)) (EV 10));
    Set_ 13 (E2 BAdd (EV 13) (E2 BAdd (EV 29) (EV 35)));
    Set_ 12 (E2 BAdd (EV 12) (E2 BAdd (EV 13) (EV 28)));
    Set_ 13 (E2 BXor (E1 (URotl 44) (EV 13)) (EV 12));
    Set_ 15 (E2 BAdd (EV 15) (E2 BAdd (EV 31) (EC 17)));
    Set_ 14 (E2 BAdd (EV 14) (E2 BAdd (E2 BAdd (EV 15) (EV 30)) (EV 33)));
    Set_ 15 (E2 BXor (E1 (URotl 30) (EV 15)) (EV 14));
    Set_ 0 (E2 BAdd (EV 0) (EV 9));
    Set_ 9 (E2 BXor (E1 (URotl 16) (EV 9)) (EV 0));
    Set_ 2 (E2 BAdd (EV 2) (EV 13));
    Set_ 13 (E2 BXor (E1 (URotl 34) (EV 13)) (EV 2));
    Set_ 6 (E2 BAdd (EV 6) (EV 11));
    Set_ 11 (E2 BXor (E1 (URotl 56) (EV 11)) (EV 6));
    Set_ 4 (E2 BAdd (EV 4) (EV 15));
    Set_ 15 (E2 BXor (E1 (URotl 51) (EV 15)) (EV 4));
    Set_ 10 (E2 BAdd (EV 10) (EV 7));
    Set_ 7 (E2 BXor (E1 (URotl 4) (EV 7)) (EV 10));
    Set_ 12 (E2 BAdd (EV 12) (EV 3));
    Set_ 3 (E2 BXor (E1 (URotl 53) (EV 3)) (EV 12));
    Set_ 14 (E2 BAdd (EV 14) (EV 5));
    Set_ 5 (E2 BXor (E1 (URotl 42) (EV 5)) (EV 14));
    Set_ 8 (E2 BAdd (EV 8) (EV 1));
    Set_ 1 (E2 BXor (E1 (URotl 41) (EV 1)) (EV 8));
    Set_ 0 (E2 BAdd (EV 0) (EV 7));
    Set_ 7 (E2 BXor (E1 (URotl 31) (EV 7)) (EV 0));
    Set_ 2 (E2 BAdd (EV 2) (EV 5));
    Set_ 5 (E2 BXor (E1 (URotl 44) (EV 5)) (EV 2));
    Set_ 4 (E2 BAdd (EV 4) (EV 3));
    Set_ 3 (E2 BXor (E1 (URotl 47) (EV 3)) (EV 4));
    Set_ 6 (E2 BAdd (EV 6) (EV 1));
    Set_ 1 (E2 BXor (E1 (URotl 46) (EV 1)) (EV 6));
    Set_ 12 (E2 BAdd (EV 12) (EV 15));
    Set_ 15 (E2 BXor (E1 (URotl 19) (EV 15)) (EV 12));
    Set_ 14 (E2 BAdd (EV 14) (EV 13));
    Set_ 13 (E2 BXor (E1 (URotl 42) (EV 13)) (EV 14));
    Set_ 8 (E2 BAdd (EV 8) (EV 11));
    Set_ 11 (E2 BXor (E1 (URotl 44) (EV 11)) (EV 8));
    Set_ 10 (E2 BAdd (EV 10) (EV 9));
    Set_ 9 (E2 BXor (E1 (URotl 25) (EV 9)) (EV 10));
    Set_ 0 (E2 BAdd (EV 0) (EV 15));
    Set_ 15 (E2 BXor (E1 (URotl 9) (EV 15)) (EV 0));
    Set_ 2 (E2 BAdd (EV 2) (EV 11));
    Set_ 11 (E2 BXor (E1 (URotl 48) (EV 11)) (EV 2));
    Set_ 6 (E2 BAdd (EV 6) (EV 13));
    Set_ 13 (E2 BXor (E1 (URotl 35) (EV 13)) (EV 6));
    Set_ 4 (E2 BAdd (EV 4) (EV 9));
    Set_ 9 (E2 BXor (E1 (URotl 52) (EV 9)) (EV 4));
    Set_ 14 (E2 BAdd (EV 14) (EV 1));
    Set_ 1 (E2 BXor (E1 (URotl 23) (EV 1)) (EV 14));
    Set_ 8 (E2 BAdd (EV 8) (EV 5));
    Set_ 5 (E2 BXor (E1 (URotl 31) (EV 5)) (EV 8));
    Set_ 10 (E2 BAdd (EV 10) (EV 3));
    Set_ 3 (E2 BXor (E1 (URotl 37) (EV 3)) (EV 10));
    Set_ 12 (E2 BAdd (EV 12) (EV 7));
    Set_ 7 (E2 BXor (E1 (URotl 20) (EV 7)) (EV 12))];
   [Set_ 1 (E2 BAdd (EV 1) (EV 18));
    Set_ 0 (E2 BAdd (EV 0) (E2 BAdd (EV 1) (EV 17)));
    Set_ 1 (E2 BXor (E1 (URotl 24) (EV 1)) (EV 0));
    Set_ 3 (E2 BAdd (EV 3) (EV 20));
    Set_ 2 (E2 BAdd (EV 2) (E2 BAdd (EV 3) (EV 19)));
    Set_ 3 (E2 BXor (E1 (URotl 13) (EV 3)) (EV 2));
    Set_ 5 (E2 BAdd (EV 5) (EV 22));
    Set_ 4 (E2 BAdd (EV 4) (E2 BAdd (EV 5) (EV 21)));
    Set_ 5 (E2 BXor (E1 (URotl 8) (EV 5)) (EV 4));
    Set_ 7 (E2 BAdd (EV 7) (EV 24));
    Set_ 6 (E2 BAdd (EV 6) (E2 BAdd (EV 7) (EV 23)));
    Set_ 7 (E2 BXor (E1 (URotl 47) (EV 7)) (EV 6));
    Set_ 9 (E2 BAdd (EV 9) (EV 26));
    Set_ 8 (E2 BAdd (EV 8) (E2 BAdd (EV 9) (EV 25)));
    Set_ 9 (E2 BXor (E1 (URotl 8) (EV 9)) (EV 8));
    Set_ 11 (E2 BAdd (EV 11) (EV 28));
    Set_ 10 (E2 BAdd (EV 10) (E2 BAdd (EV 11) (EV 27)));
    Set_ 11 (E2 BXor (E1 (URotl 17) (EV 11)) (EV 10));
    Set_ 13 (E2 BAdd (EV 13) (E2 BAdd (EV 30) (EV 33)));
    Set_ 12 (E2 BAdd (EV 12) (E2 BAdd (EV 13) (EV 29)));
    Set_ 13 (E2 BXor (E1 (URotl 22) (EV 13)) (EV 12));
    Set_ 15 (E2 BAdd (EV 15) (E2 BAdd (EV 32) (EC 18)));
    Set_ 14 (E2 BAdd (EV 14) (E2 BAdd (E2 BAdd (EV 15) (EV 31)) (EV 34)));
    Set_ 15 (E2 BXor (E1 (URotl 37) (EV 15)) (EV 14));
    Set_ 0 (E2 BAdd (EV 0) (EV 9));
    Set_ 9 (E2 BXor (E1 (URotl 38) (EV 9)) (EV 0));
    Set_ 2 (E2 BAdd (EV 2) (EV 13));
    Set_ 13 (E2 BXor (E1 (URotl 19) (EV 13)) (EV 2));
    Set_ 6 (E2 BAdd (EV 6) (EV 11));
    Set_ 11 (E2 BXor (E1 (URotl 10) (EV 11)) (EV 6));
    Set_ 4 (E2 BAdd (EV 4) (EV 15));
    Set_ 15 (E2 BXor (E1 (URotl 55) (EV 15)) (EV 4));
    Set_ 10 (E2 BAdd (EV 10) (EV 7));
    Set_ 7 (E2 BXor (E1 (URotl 49) (EV 7)) (EV 10));
    Set_ 12 (E2 BAdd (EV 12) (EV 3));
    Set_ 3 (E2 BXor (E1 (URotl 18) (EV 3)) (EV 12));
    Set_ 14 (E2 BAdd (EV 14) (EV 5));
    Set_ 5 (E2 BXor (E1 (URotl 23) (EV 5)) (EV 14));
    Set_ 8 (E2 BAdd (EV 8) (EV 1));
    Set_ 1 (E2 BXor (E1 (URotl 52) (EV 1)) (EV 8));
    Set_ 0 (E2 BAdd (EV 0) (EV 7));
    Set_ 7 (E2 BXor (E1 (URotl 33) (EV 7)) (EV 0));
    Set_ 2 (E2 BAdd (EV 2) (EV 5));
    Set_ 5 (E2 BXor (E1 (URotl 4) (EV 5)) (EV 2));
    Set_ 4 (E2 BAdd (EV 4) (EV 3));
    Set_ 3 (E2 BXor (E1 (URotl 51) (EV 3)) (EV 4));
    Set_ 6 (E2 BAdd (EV 6) (EV 1));
    Set_ 1 (E2 BXor (E1 (URotl 13) (EV 1)) (EV 6));
    Set_ 12 (E2 BAdd (EV 12) (EV 15));
    Set_ 15 (E2 BXor (E1 (URotl 34) (EV 15)) (EV 12));
    Set_ 14 (E2 BAdd (EV 14) (EV 13));
    Set_ 13 (E2 BXor (E1 (URotl 41) (EV 13)) (EV 14));
    Set_ 8 (E2 BAdd (EV 8) (EV 11));
    Set_ 11 (E2 BXor (E1 (URotl 59) (EV 11)) (EV 8));
    Set_ 10 (E2 BAdd (EV 10) (EV 9));
    Set_ 9 (E2 BXor (E1 (URotl 17) (EV 9)) (EV 10));
    Set_ 0 (E2 BAdd (EV 0) (EV 15));
    Set_ 15 (E2 BXor (E1 (URotl 5) (EV 15)) (EV 0));
    Set_ 2 (E2 BAdd (EV 2) (EV 11));
    Set_ 11 (E2 BXor (E1 (URotl 20) (EV 11)) (EV 2));
    Set_ 6 (E2 BAdd (EV 6) (EV 13));
    Set_ 13 (E2 BXor (E1 (URotl 48) (EV 13)) (EV 6));
    Set_ 4 (E2 BAdd (EV 4) (EV 9));
    Set_ 9 (E2 BXor (E1 (URotl 41) (EV 9)) (EV 4));
    Set_ 14 (E2 BAdd (EV 14) (EV 1));
    Set_ 1 (E2 BXor (E1 (URotl 47) (EV 1)) (EV 14));
    Set_ 8 (E2 BAdd (EV 8) (EV 5));
    Set_ 5 (E2 BXor (E1 (URotl 28) (EV 5)) (EV 8));
    Set_ 10 (E2 BAdd (EV 10) (EV 3));
    Set_ 3 (E2 BXor (E1 (URotl 16) (EV 3)) (EV 10));
    Set_ 12 (E2 BAdd (EV 12) (EV 7));
    Set_ 7 (E2 BXor (E1 (URotl 25) (EV 7)) (EV 12))];
   [Set_ 1 (E2 BAdd (EV 1) (EV 19));
    Set_ 0 (E2 BAdd (EV 0) (E2 BAdd (EV 1) (EV 18)));
    Set_ 1 (E2 BXor (E1 (URotl 41) (EV 1)) (EV 0));
    Set_ 3 (E2 BAdd (EV 3) (EV 21));
    Set_ 2 (E2 BAdd (EV 2) (E2 BAdd (EV 3) (EV 20)));
    Set_ 3 (E2 BXor (E1 (URotl 9) (EV 3)) (EV 2));
    Set_ 5 (E2 BAdd (EV 5) (EV 23));
    Set_ 4 (E2 BAdd (EV 4) (E2 BAdd (EV 5) (EV 22)));
    Set_ 5 (E2 BXor (E1 (URotl 37) (EV 5)) (EV 4));
    Set_ 7 (E2 BAdd (EV 7) (EV 25));
    Set_ 6 (E2 BAdd (EV 6) (E2 BAdd (EV 7) (EV 24)));
    Set_ 7 (E2 BXor (E1 (URotl 31) (EV 7)) (EV 6));
    Set_ 9 (E2 BAdd (EV 9) (EV 27));
    Set_ 8 (E2 BAdd (EV 8) (E2 BAdd (EV 9) (EV 26)));
    Set_ 9 (E2 BXor (E1 (URotl 12) (EV 9)) (EV 8));
    Set_ 11 (E2 BAdd (EV 11) (EV 29));
    Set_ 10 (E2 BAdd (EV 10) (E2 BAdd (EV 11) (EV 28)));
    Set_ 11 (E2 BXor (E1 (URotl 47) (EV 11)) (EV 10));
    Set_ 13 (E2 BAdd (EV 13) (E2 BAdd (EV 31) (EV 34)));
    Set_ 12 (E2 BAdd (EV 12) (E2 BAdd (EV 13) (EV 30)));
    Set_ 13 (E2 BXor (E1 (URotl 44) (EV 13)) (EV 12));
    Set_ 15 (E2 BAdd (EV 15) (E2 BAdd (EV 16) (EC 19)));
    Set_ 14 (E2 BAdd (EV 14) (E2 BAdd (E2 BAdd (EV 15) (EV 32)) (EV 35)));
    Set_ 15 (E2 BXor (E1 (URotl 30) (EV 15)) (EV 14));
    Set_ 0 (E2 BAdd (EV 0) (EV 9));
    Set_ 9 (E2 BXor (E1 (URotl 16) (EV 9)) (EV 0));
    Set_ 2 (E2 BAdd (EV 2) (EV 13));
    Set_ 13 (E2 BXor (E1 (URotl 34) (EV 13)) (EV 2));
    Set_ 6 (E2 BAdd (EV 6) (EV 11));
    Set_ 11 (E2 BXor (E1 (URotl 56) (EV 11)) (EV 6));
    Set_ 4 (E2 BAdd (EV 4) (EV 15));
    Set_ 15 (E2 BXor (E1 (URotl 51) (EV 15)) (EV 4));
    Set_ 10 (E2 BAdd (EV 10) (EV 7));
    Set_ 7 (E2 BXor (E1 (URotl 4) (EV 7)) (EV 10));
    Set_ 12 (E2 BAdd (EV 12) (EV 3));
    Set_ 3 (E2 BXor (E1 (URotl 53) (EV 3)) (EV 12));
    Set_ 14 (E2 BAdd (EV 14) (EV 5));
    Set_ 5 (E2 BXor (E1 (URotl 42) (EV 5)) (EV 14));
    Set_ 8 (E2 BAdd (EV 8) (EV 1));
    Set_ 1 (E2 BXor (E1 (URotl 41) (EV 1)) (EV 8));
    Set_ 0 (E2 BAdd (EV 0) (EV 7));
    Set_ 7 (E2 BXor (E1 (URotl 31) (EV 7)) (EV 0));
    Set_ 2 (E2 BAdd (EV 2) (EV 5));
    Set_ 5 (E2 BXor (E1 (URotl 44) (EV 5)) (EV 2));
    Set_ 4 (E2 BAdd (EV 4) (EV 3));
    Set_ 3 (E2 BXor (E1 (URotl 47) (EV 3)) (EV 4));
    Set_ 6 (E2 BAdd (EV 6) (EV 1));
    Set_ 1 (E2 BXor (E1 (URotl 46) (EV 1)) (EV 6));
    Set_ 12 (E2 BAdd (EV 12) (EV 15));
    Set_ 15 (E2 BXor (E1 (URotl 19) (EV 15)) (EV 12));
    Set_ 14 (E2 BAdd (EV 14) (EV 13));
    Set_ 13 (E2 BXor (E1 (URotl 42) (EV 13)) (EV 14));
    Set_ 8 (E2 BAdd (EV 8) (EV 11));
    Set_ 11 (E2 BXor (E1 (URotl 44) (EV 11)) (EV 8));
    Set_ 10 (E2 BAdd (EV 10) (EV 9));
    Set_ 9 (E2 BXor (E1 (URotl 25) (EV 9)) (EV 10));
    Set_ 0 (E2 BAdd (EV 0) (EV 15));
    Set_ 15 (E2 BXor (E1 (URotl 9) (EV 15)) (EV 0));
    Set_ 2 (E2 BAdd (EV 2) (EV 11));
    Set_ 11 (E2 BXor (E1 (URotl 48) (EV 11)) (EV 2));
    Set_ 6 (E2 BAdd (EV 6) (EV 13));
    Set_ 13 (E2 BXor (E1 (URotl 35) (EV 13)) (EV 6));
    Set_ 4 (E2 BAdd (EV 4) (EV 9));
    Set_ 9 (E2 BXor (E1 (URotl 52) (EV 9)) (EV 4));
    Set_ 14 (E2 BAdd (EV 14) (EV 1));
    Set_ 1 (E2 BXor (E1 (URotl 23) (EV 1)) (EV 14));
    Set_ 8 (E2 BAdd (EV 8) (EV 5));
    Set_ 5 (E2 BXor (E1 (URotl 31) (EV 5)) (EV 8));
    Set_ 10 (E2 BAdd (EV 10) (EV 3));
    Set_ 3 (E2 BXor (E1 (URotl 37) (EV 3)) (EV 10));
    Set_ 12 (E2 BAdd (EV 12) (EV 7));
    Set_ 7 (E2 BXor (E1 (URotl 20) (EV 7)) (EV 12))]].
(** output[i] = ..., in increasing order of i, threefish1024.go:1566-1581. *)
Definition enc1024_out : list exp :=
  [(E2 BAdd (EV 0) (EV 19));
   (E2 BAdd (EV 1) (EV 20));
   (E2 BAdd (EV 2) (EV 21));
   (E2 BAdd (EV 3) (EV 22));
   (E2 BAdd (EV 4) (EV 23));
   (E2 BAdd (EV 5) (EV 24));
   (E2 BAdd (EV 6) (EV 25));
   (E2 BAdd (EV 7) (EV 26));
   (E2 BAdd (EV 8) (EV 27));
   (E2 BAdd (EV 9) (EV 28));
   (E2 BAdd (EV 10) (EV 29));
   (E2 BAdd (EV 11) (EV 30));
   (E2 BAdd (EV 12) (EV 31));
   (E2 BAdd (E2 BAdd (EV 13) (EV 32)) (EV 35));
   (E2 BAdd (E2 BAdd (EV 14) (EV 16)) (EV 33));
   (E2 BAdd (E2 BAdd (EV 15) (EV 17)) (EC 20))].
(** threefish1024.go:1628-3723. *)
Definition dec1024_groups : list prog :=
  [[Set_ 0 (E2 BSub (EV 0) (EV 19));
    Set_ 1 (E2 BSub (EV 1) (EV 20));
    Set_ 2 (E2 BSub (EV 2) (EV 21));
    Set_ 3 (E2 BSub (EV 3) (EV 22));
    Set_ 4 (E2 BSub (EV 4) (EV 23));
    Set_ 5 (E2 BSub (EV 5) (EV 24));
    Set_ 6 (E2 BSub (EV 6) (EV 25));
    Set_ 7 (E2 BSub (EV 7) (EV 26));
    Set_ 8 (E2 BSub (EV 8) (EV 27));
    Set_ 9 (E2 BSub (EV 9) (EV 28));
    Set_ 10 (E2 BSub (EV 10) (EV 29));
    Set_ 11 (E2 BSub (EV 11) (EV 30));
    Set_ 12 (E2 BSub (EV 12) (EV 31));
    Set_ 13 (E2 BSub (EV 13) (E2 BAdd (EV 32) (EV 35)));
    Set_ 14 (E2 BSub (EV 14) (E2 BAdd (EV 16) (EV 33)));
    Set_ 15 (E2 BSub (EV 15) (E2 BAdd (EV 17) (EC 20)))];
   [Set_ 36 (E2 BXor (EV 7) (EV 12));
    Set_ 7 (E1 (URotr 20) (EV 36));
    Set_ 12 (E2 BSub (EV 12) (EV 7));
    Set_ 36 (E2 BXor (EV 3) (EV 10));
    Set_ 3 (E1 (URotr 37) (EV 36));
    Set_ 10 (E2 BSub (EV 10) (EV 3));
    Set_ 36 (E2 BXor (EV 5) (EV 8));
    Set_ 5 (E1 (URotr 31) (EV 36));
    Set_ 8 (E2 BSub (EV 8) (EV 5));
    Set_ 36 (E2 BXor (EV 1) (EV 14));
    Set_ 1 (E1 (URotr 23) (EV 36));
    Set_ 14 (E2 BSub (EV 14) (EV 1));
    Set_ 36 (E2 BXor (EV 9) (EV 4));
    Set_ 9 (E1 (URotr 52) (EV 36));
    Set_ 4 (E2 BSub (EV 4) (EV 9));
    Set_ 36 (E2 BXor (EV 13) (EV 6));
    Set_ 13 (E1 (URotr 35) (EV 36));
    Set_ 6 (E2 BSub (EV 6) (EV 13));
    Set_ 36 (E2 BXor (EV 11) (EV 2));
    Set_ 11 (E1 (URotr 48) (EV 36));
    Set_ 2 (E2 BSub (EV 2) (EV 11));
    Set_ 36 (E2 BXor (EV 15) (EV 0));
    Set_ 15 (E1 (URotr 9) (EV 36));
    Set_ 0 (E2 BSub (EV 0) (EV 15));
    Set_ 36 (E2 BXor (EV 9) (EV 10));
    Set_ 9 (E1 (URotr 25) (EV 36));
    Set_ 10 (E2 BSub (EV 10) (EV 9));
    Set_ 36 (E2 BXor (EV 11) (EV 8));
    Set_ 11 (E1 (URotr 44) (EV 36));
    Set_ 8 (E2 BSub (EV 8) (EV 11));
    Set_ 36 (E2 BXor (EV 13) (EV 14));
    Set_ 13 (E1 (URotr 42) (EV 36));
    Set_ 14 (E2 BSub (EV 14) (EV 13));
    Set_ 36 (E2 BXor (EV 15) (EV 12));
    Set_ 15 (E1 (URotr 19) (EV 36));
    Set_ 12 (E2 BSub (EV 12) (EV 15));
    Set_ 36 (E2 BXor (EV 1) (EV 6));
    Set_ 1 (E1 (URotr 46) (EV 36));
    Set_ 6 (E2 BSub (EV 6) (EV 1));
    Set_ 36 (E2 BXor (EV 3) (EV 4));
    Set_ 3 (E1 (URotr 47) (EV 36));
    Set_ 4 (E2 BSub (EV 4) (EV 3));
    Set_ 36 (E2 BXor (EV 5) (EV 2));
    Set_ 5 (E1 (URotr 44) (EV 36));
    Set_ 2 (E2 BSub (EV 2) (EV 5));
    Set_ 36 (E2 BXor (EV 7) (EV 0));
    Set_ 7 (E1 (URotr 31) (EV 36));
    Set_ 0 (E2 BSub (EV 0) (EV 7));
    Set_ 36 (E2 BXor (EV 1) (EV 8));
    Set_ 1 (E1 (URotr 41) (EV 36));
    Set_ 8 (E2 BSub (EV 8) (EV 1));
    Set_ 36 (E2 BXor (EV 5) (EV 14));
    Set_ 5 (E1 (URotr 42) (EV 36));
    Set_ 14 (E2 BSub (EV 14) (EV 5));
    Set_ 36 (E2 BXor (EV 3) (EV 12));
    Set_ 3 (E1 (URotr 53) (EV 36));
    Set_ 12 (E2 BSub (EV 12) (EV 3));
    Set_ 36 (E2 BXor (EV 7) (EV 10));
    Set_ 7 (E1 (URotr 4) (EV 36));
    Set_ 10 (E2 BSub (EV 10) (EV 7));
    Set_ 36 (E2 BXor (EV 15) (EV 4));
    Set_ 15 (E1 (URotr 51) (EV 36));
    Set_ 4 (E2 BSub (EV 4) (EV 15));
    Set_ 36 (E2 BXor (EV 11) (EV 6));
    Set_ 11 (E1 (URotr 56) (EV 36));
    Set_ 6 (E2 BSub (EV 6) (EV 11));
    Set_ 36 (E2 BXor (EV 13) (EV 2));
    Set_ 13 (E1 (URotr 34) (EV 36));
    Set_ 2 (E2 BSub (EV 2) (EV 13));
    Set_ 36 (E2 BXor (EV 9) (EV 0));
    Set_ 9 (E1 (URotr 16) (EV 36));
    Set_ 0 (E2 BSub (EV 0) (EV 9));
    Set_ 36 (E2 BXor (EV 15) (EV 14));
    Set_ 15 (E1 (URotr 30) (EV 36));
    Set_ 14 (E2 BSub (EV 14) (E2 BAdd (E2 BAdd (EV 15) (EV 32)) (EV 35)));
    Set_ 15 (E2 BSub (EV 15) (E2 BAdd (EV 16) (EC 19)));
    Set_ 36 (E2 BXor (EV 13) (EV 12));
    Set_ 13 (E1 (URotr 44) (EV 36));
    Set_ 12 (E2 BSub (EV 12) (E2 BAdd (EV 13) (EV 30)));
    Set_ 13 (E2 BSub (EV 13) (E2 BAdd (EV 31) (EV 34)));
    Set_ 36 (E2 BXor (EV 11) (EV 10));
    Set_ 11 (E1 (URotr 47) (EV 36));
    Set_ 10 (E2 BSub (EV 10) (E2 BAdd (EV 11) (EV 28)));
    Set_ 11 (E2 BSub (EV 11) (EV 29));
    Set_ 36 (E2 BXor (EV 9) (EV 8));
    Set_ 9 (E1 (URotr 12) (EV 36));
    Set_ 8 (E2 BSub (EV 8) (E2 BAdd (EV 9) (EV 26)));
    Set_ 9 (E2 BSub (EV 9) (EV 27));
    Set_ 36 (E2 BXor (EV 7) (EV 6));
    Set_ 7 (E1 (URotr 31) (EV 36));
    Set_ 6 (E2 BSub (EV 6) (E2 BAdd (EV 7) (EV 24)));
    Set_ 7 (E2 BSub (EV 7) (EV 25));
    Set_ 36 (E2 BXor (EV 5) (EV 4));
    Set_ 5 (E1 (URotr 37) (EV 36));
    Set_ 4 (E2 BSub (EV 4) (E2 BAdd (EV 5) (EV 22)));
    Set_ 5 (E2 BSub (EV 5) (EV 23));
    Set_ 36 (E2 BXor (EV 3) (EV 2));
    Set_ 3 (E1 (URotr 9) (EV 36));
    Set_ 2 (E2 BSub (EV 2) (E2 BAdd (EV 3) (EV 20)));
    Set_ 3 (E2 BSub (EV 3) (EV 21));
    Set_ 36 (E2 BXor (EV 1) (EV 0));
    Set_ 1 (E1 (URotr 41) (EV 36));
    Set_ 0 (E2 BSub (EV 0) (E2 BAdd (EV 1) (EV 18)));
    Set_ 1 (E2 BSub (EV 1) (EV 19))];
   [Set_ 36 (E2 BXor (EV 7) (EV 12));
    Set_ 7 (E1 (URotr 25) (EV 36));
    Set_ 12 (E2 BSub (EV 12) (EV 7));
    Set_ 36 (E2 BXor (EV 3) (EV 10));
    Set_ 3 (E1 (URotr 16) (EV 36));
    Set_ 10 (E2 BSub (EV 10) (EV 3));
    Set_ 36 (E2 BXor (EV 5) (EV 8));
    Set_ 5 (E1 (URotr 28) (EV 36));
    Set_ 8 (E2 BSub (EV 8) (EV 5));
    Set_ 36 (E2 BXor (EV 1) (EV 14));
    Set_ 1 (E1 (URotr 47) (EV 36));
    Set_ 14 (E2 BSub (EV 14) (EV 1));
    Set_ 36 (E2 BXor (EV 9) (EV 4));
    Set_ 9 (E1 (URotr 41) (EV 36));
    Set_ 4 (E2 BSub (EV 4) (EV 9));
    Set_ 36 (E2 BXor (EV 13) (EV 6));
    Set_ 13 (E1 (URotr 48) (EV 36));
    Set_ 6 (E2 BSub (EV 6) (EV 13));
    Set_ 36 (E2 BXor (EV 11) (EV 2));
    Set_ 11 (E1 (URotr 20) (EV 36));
    Set_ 2 (E2 BSub (EV 2) (EV 11));
    Set_ 36 (E2 BXor (EV 15) (EV 0));
    Set_ 15 (E1 (URotr 5) (EV 36));
    Set_ 0 (E2 BSub (EV 0) (EV 15));
    Set_ 36 (E2 BXor (EV 9) (EV 10));
    Set_ 9 (E1 (URotr 17) (EV 36));
    Set_ 10 (E2 BSub (EV 10) (EV 9));
    Set_ 36 (E2 BXor (EV 11) (EV 8));
    Set_ 11 (E1 (URotr 59) (EV 36));
    Set_ 8 (E2 BSub (EV 8) (EV 11));
    Set_ 36 (E2 BXor (EV 13) (EV 14));
    Set_ 13 (E1 (URotr 41) (EV 36));
    Set_ 14 (E2 BSub (EV 14) (EV 13));
    Set_ 36 (E2 BXor (EV 15) (EV 12));
    Set_ 15 (E1 (URotr 34) (EV 36));
    Set_ 12 (E2 BSub (EV 12) (EV 15));
    Set_ 36 (E2 BXor (EV 1) (EV 6));
    Set_ 1 (E1 (URotr 13) (EV 36));
    Set_ 6 (E2 BSub (EV 6) (EV 1));
    Set_ 36 (E2 BXor (EV 3) (EV 4));
    Set_ 3 (E1 (URotr 51) (EV 36));
    Set_ 4 (E2 BSub (EV 4) (EV 3));
    Set_ 36 (E2 BXor (EV 5) (EV 2));
    Set_ 5 (E1 (URotr 4) (EV 36));
    Set_ 2 (E2 BSub (EV 2) (EV 5));
    Set_ 36 (E2 BXor (EV 7) (EV 0));
    Set_ 7 (E1 (URotr 33) (EV 36));
    Set_ 0 (E2 BSub (EV 0) (EV 7));
    Set_ 36 (E2 BXor (EV 1) (EV 8));
    Set_ 1 (E1 (URotr 52) (EV 36));
    Set_ 8 (E2 BSub (EV 8) (EV 1));
    Set_ 36 (E2 BXor (EV 5) (EV 14));
    Set_ 5 (E1 (URotr 23) (EV 36));
    Set_ 14 (E2 BSub (EV 14) (EV 5));
    Set_ 36 (E2 BXor (EV 3) (EV 12));
    Set_ 3 (E1 (URotr 18) (EV 36));
    Set_ 12 (E2 BSub (EV 12) (EV 3));
    Set_ 36 (E2 BXor (EV 7) (EV 10));
    Set_ 7 (E1 (URotr 49) (EV 36));
    Set_ 10 (E2 BSub (EV 10) (EV 7));
    Set_ 36 (E2 BXor (EV 15) (EV 4));
    Set_ 15 (E1 (URotr 55) (EV 36));
    Set_ 4 (E2 BSub (EV 4) (EV 15));
    Set_ 36 (E2 BXor (EV 11) (EV 6));
    Set_ 11 (E1 (URotr 10) (EV 36));
    Set_ 6 (E2 BSub (EV 6) (EV 11));
    Set_ 36 (E2 BXor (EV 13) (EV 2));
    Set_ 13 (E1 (URotr 19) (EV 36));
    Set_ 2 (E2 BSub (EV 2) (EV 13));
    Set_ 36 (E2 BXor (EV 9) (EV 0));
    Set_ 9 (E1 (URotr 38) (EV 36));
    Set_ 0 (E2 BSub (EV 0) (EV 9));
    Set_ 36 (E2 BXor (EV 15) (EV 14));
    Set_ 15 (E1 (URotr 37) (EV 36));
    Set_ 14 (E2 BSub (EV 14) (E2 BAdd (E2 BAdd (EV 15) (EV 31)) (EV 34)));
    Set_ 15 (E2 BSub (EV 15) (E2 BAdd (EV 32) (EC 18)));
    Set_ 36 (E2 BXor (EV 13) (EV 12));
    Set_ 13 (E1 (URotr 22) (EV 36));
    Set_ 12 (E2 BSub (EV 12) (E2 BAdd (EV 13) (EV 29)));
    Set_ 13 (E2 BSub (EV 13) (E2 BAdd (EV 30) (EV 33)));
    Set_ 36 (E2 BXor (EV 11) (EV 10));
    Set_ 11 (E1 (URotr 17) (EV 36));
    Set_ 10 (E2 BSub (EV 10) (E2 BAdd (EV 11) (EV 27)));
    Set_ 11 (E2 BSub (EV 11) (EV 28));
    Set_ 36 (E2 BXor (EV 9) (EV 8));
    Set_ 9 (E1 (URotr 8) (EV 36));
    Set_ 8 (E2 BSub (EV 8) (E2 BAdd (EV 9) (EV 25)));
    Set_ 9 (E2 BSub (EV 9) (EV 26));
    Set_ 36 (E2 BXor (EV 7) (EV 6));
    Set_ 7 (E1 (URotr 47) (EV 36));
    Set_ 6 (E2 BSub (EV 6) (E2 BAdd (EV 7) (EV 23)));
    Set_ 7 (E2 BSub (EV 7) (EV 24));
    Set_ 36 (E2 BXor (EV 5) (EV 4));
    Set_ 5 (E1 (URotr 8) (EV 36));
    Set_ 4 (E2 BSub (EV 4) (E2 BAdd (EV 5) (EV 21)));
    Set_ 5 (E2 BSub (EV 5) (EV 22));
    Set_ 36 (E2 BXor (EV 3) (EV 2));
    Set_ 3 (E1 (URotr 13) (EV 36));
    Set_ 2 (E2 BSub (EV 2) (E2 BAdd (EV 3) (EV 19)));
    Set_ 3 (E2 BSub (EV 3) (EV 20));
    Set_ 36 (E2 BXor (EV 1) (EV 0));
    Set_ 1 (E1 (URotr 24) (EV 36));
    Set_ 0 (E2 BSub (EV 0) (E2 BAdd (EV 1) (EV 17)));
    Set_ 1 (E2 BSub (EV 1) (EV 18))];
   [Set_ 36 (E2 BXor (EV 7) (EV 12));
    Set_ 7 (E1 (URotr 20) (EV 36));
    Set_ 12 (E2 BSub (EV 12) (EV 7));
    Set_ 36 (E2 BXor (EV 3) (EV 10));
    Set_ 3 (E1 (URotr 37) (EV 36));
    Set_ 10 (E2 BSub (EV 10) (EV 3));
    Set_ 36 (E2 BXor (EV 5) (EV 8));
    Set_ 5 (E1 (URotr 31) (EV 36));
    Set_ 8 (E2 BSub (EV 8) (EV 5));
    Set_ 36 (E2 BXor (EV 1) (EV 14));
    Set_ 1 (E1 (URotr 23) (EV 36));
    Set_ 14 (E2 BSub (EV 14) (EV 1));
    Set_ 36 (E2 BXor (EV 9) (EV 4));
    Set_ 9 (E1 (URotr 52) (EV 36));
    Set_ 4 (E2 BSub (EV 4) (EV 9));
    Set_ 36 (E2 BXor (EV 13) (EV 6));
    Set_ 13 (E1 (URotr 35) (EV 36));
    Set_ 6 (E2 BSub (EV 6) (EV 13));
    Set_ 36 (E2 BXor (EV 11) (EV 2));
    Set_ 11 (E1 (URotr 48) (EV 36));
    Set_ 2 (E2 BSub (EV 2) (EV 11));
    Set_ 36 (E2 BXor (EV 15) (EV 0));
    Set_ 15 (E1 (URotr 9) (EV 36));
    Set_ 0 (E2 BSub (EV 0) (EV 15));
    Set_ 36 (E2 BXor (EV 9) (EV 10));
    Set_ 9 (E1 (URotr 25) (EV 36));
    Set_ 10 (E2 BSub (EV 10) (EV 9));
    Set_ 36 (E2 BXor (EV 11) (EV 8));
    Set_ 11 (E1 (URotr 44) (EV 36));
    Set_ 8 (E2 BSub (EV 8) (EV 11));
    Set_ 36 (E2 BXor (EV 13) (EV 14));
    Set_ 13 (E1 (URotr 42) (EV 36));
    Set_ 14 (E2 BSub (EV 14) (EV 13));
    Set_ 36 (E2 BXor (EV 15) (EV 12));
    Set_ 15 (E1 (URotr 19) (EV 36));
    Set_ 12 (E2 BSub (EV 12) (EV 15));
    Set_ 36 (E2 BXor (EV 1) (EV 6));
    Set_ 1 (E1 (URotr 46) (EV 36));
    Set_ 6 (E2 BSub (EV 6) (EV 1));
    Set_ 36 (E2 BXor (EV 3) (EV 4));
    Set_ 3 (E1 (URotr 47) (EV 36));
    Set_ 4 (E2 BSub (EV 4) (EV 3));
    Set_ 36 (E2 BXor (EV 5) (EV 2));
    Set_ 5 (E1 (URotr 44) (EV 36));
    Set_ 2 (E2 BSub (EV 2) (EV 5));
    Set_ 36 (E2 BXor (EV 7) (EV 0));
    Set_ 7 (E1 (URotr 31) (EV 36));
    Set_ 0 (E2 BSub (EV 0) (EV 7));
    Set_ 36 (E2 BXor (EV 1) (EV 8));
    Set_ 1 (E1 (URotr 41) (EV 36));
    Set_ 8 (E2 BSub (EV 8) (EV 1));
    Set_ 36 (E2 BXor (EV 5) (EV 14));
    Set_ 5 (E1 (URotr 42) (EV 36));
    Set_ 14 (E2 BSub (EV 14) (EV 5));
    Set_ 36 (E2 BXor (EV 3) (EV 12));
    Set_ 3 (E1 (URotr 53) (EV 36));
    Set_ 12 (E2 BSub (EV 12) (EV 3));
    Set_ 36 (E2 BXor (EV 7) (EV 10));
    Set_ 7 (E1 (URotr 4) (EV 36));
    Set_ 10 (E2 BSub (EV 10) (EV 7));
    Set_ 36 (E2 BXor (EV 15) (EV 4));
    Set_ 15 (E1 (URotr 51) (EV 36));
    Set_ 4 (E2 BSub (EV 4) (EV 15));
    Set_ 36 (E2 BXor (EV 11) (EV 6));
    Set_ 11 (E1 (URotr 56) (EV 36));
    Set_ 6 (E2 BSub (EV 6) (EV 11));
    Set_ 36 (E2 BXor (EV 13) (EV 2));
    Set_ 13 (E1 (URotr 34) (EV 36));
    Set_ 2 (E2 BSub (EV 2) (EV 13));
    Set_ 36 (E2 BXor (EV 9) (EV 0));
    Set_ 9 (E1 (URotr 16) (EV 36));
    Set_ 0 (E2 BSub (EV 0) (EV 9));
    Set_ 36 (E2 BXor (EV 15) (EV 14));
    Set_ 15 (E1 (URotr 30) (EV 36));
    Set_ 14 (E2 BSub (EV 14) (E2 BAdd (E2 BAdd (EV 15) (EV 30)) (EV 33)));
    Set_ 15 (E2 BSub (EV 15) (E2 BAdd (EV 31) (EC 17)));
    Set_ 36 (E2 BXor (EV 13) (EV 12));
    Set_ 13 (E1 (URotr 44) (EV 36));
    Set_ 12 (E2 BSub (EV 12) (E2 BAdd (EV 13) (EV 28)));
    Set_ 13 (E2 BSub (EV 13) (E2 BAdd (EV 29) (EV 35)));
    Set_ 36 (E2 BXor (EV 11) (EV 10));
    Set_ 11 (E1 (URotr 47) (EV 36));
    Set_ 10 (E2 BSub (EV 10) (E2 BAdd (EV 11) (EV 26)));
    Set_ 11 (E2 BSub (EV 11) (EV 27));
    Set_ 36 (E2 BXor (EV 9) (EV 8));
    Set_ 9 (E1 (URotr 12) (EV 36));
    Set_ 8 (E2 BSub (EV 8) (E2 BAdd (EV 9) (EV 24)));
    Set_ 9 (E2 BSub (EV 9) (EV 25));
    Set_ 36 (E2 BXor (EV 7) (EV 6));
    Set_ 7 (E1 (URotr 31) (EV 36));
    Set_ 6 (E2 BSub (EV 6) (E2 BAdd (EV 7) (EV 22)));
    Set_ 7 (E2 BSub (EV 7) (EV 23));
    Set_ 36 (E2 BXor (EV 5) (EV 4));
    Set_ 5 (E1 (URotr 37) (EV 36));
    Set_ 4 (E2 BSub (EV 4) (E2 BAdd (EV 5) (EV 20)));
    Set_ 5 (E2 BSub (EV 5) (EV 21));
    Set_ 36 (E2 BXor (EV 3) (EV 2));
    Set_ 3 (E1 (URotr 9) (EV 36));
    Set_ 2 (E2 BSub (EV 2) (E2 BAdd (EV 3) (EV 18)));
    Set_ 3 (E2 BSub (EV 3) (EV 19));
    Set_ 36 (E2 BXor (EV 1) (EV 0));
    Set_ 1 (E1 (URotr 41) (EV 36));
    Set_ 0 (E2 BSub (EV 0) (E2 BAdd (EV 1) (EV 16)));
    Set_ 1 (E2 BSub (EV 1) (EV 17))];
   [Set_ 36 (E2 BXor (EV 7) (EV 12));
    Set_ 7 (E1 (URotr 25) (EV 36));
    Set_ 12 (E2 BSub (EV 12) (EV 7));
    Set_ 36 (E2 BXor (EV 3) (EV 10));
    Set_ 3 (E1 (URotr 16) (EV 36));
    Set_ 10 (E2 BSub (EV 10) (EV 3));
    Set_ 36 (E2 BXor (EV 5) (EV 8));
    Set_ 5 (E1 (URotr 28) (EV 36));
    Set_ 8 (E2 BSub (EV 8) (EV 5));
    Set_ 36 (E2 BXor (EV 1) (EV 14));
    Set_ 1 (E1 (URotr 47) (EV 36));
    Set_ 14 (E2 BSub (EV 14) (EV 1));
    Set_ 36 (E2 BXor (EV 9) (EV 4));
    Set_ 9 (E1 (URotr 41) (EV 36));
    Set_ 4 (E2 BSub (EV 4) (EV 9));
    Set_ 36 (E2 BXor (EV 13) (EV 6));
    Set_ 13 (E1 (URotr 48) (EV 36));
    Set_ 6 (E2 BSub (EV 6) (EV 13));
    Set_ 36 (E2 BXor (EV 11) (EV 2));
    Set_ 11 (E1 (URotr 20) (EV 36));
    Set_ 2 (E2 BSub (EV 2) (EV 11));
    Set_ 36 (E2 BXor (EV 15) (EV 0));
    Set_ 15 (E1 (URotr 5) (EV 36));
    Set_ 0 (E2 BSub (EV 0) (EV 15));
    Set_ 36 (E2 BXor (EV 9) (EV 10));
    Set_ 9 (E1 (URotr 17) (EV 36));
    Set_ 10 (E2 BSub (EV 10) (EV 9));
    Set_ 36 (E2 BXor (EV 11) (EV 8));
    Set_ 11 (E1 (URotr 59) (EV 36));
    Set_ 8 (E2 BSub (EV 8) (EV 11));
    Set_ 36 (E2 BXor (EV 13) (EV 14));
    Set_ 13 (E1 (URotr 41) (EV 36));
    Set_ 14 (E2 BSub (EV 14) (EV 13));
    Set_ 36 (E2 BXor (EV 15) (EV 12));
    Set_ 15 (E1 (URotr 34) (EV 36));
    Set_ 12 (E2 BSub (EV 12) (EV 15));
    Set_ 36 (E2 BXor (EV 1) (EV 6));
    Set_ 1 (E1 (URotr 13) (EV 36));
    Set_ 6 (E2 BSub (EV 6) (EV 1));
    Set_ 36 (E2 BXor (EV 3) (EV 4));
    Set_ 3 (E1 (URotr 51) (EV 36));
    Set_ 4 (E2 BSub (EV 4) (EV 3));
    Set_ 36 (E2 BXor (EV 5) (EV 2));
    Set_ 5 (E1 (URotr 4) (EV 36));
    Set_ 2 (E2 BSub (EV 2) (EV 5));
    Set_ 36 (E2 BXor (EV 7) (EV 0));
    Set_ 7 (E1 (URotr 33) (EV 36));
    Set_ 0 (E2 BSub (EV 0) (EV 7));
    Set_ 36 (E2 BXor (EV 1) (EV 8));
    Set_ 1 (E1 (URotr 52) (EV 36));
    Set_ 8 (E2 BSub (EV 8) (EV 1));
    Set_ 36 (E2 BXor (EV 5) (EV 14));
    Set_ 5 (E1 (URotr 23) (EV 36));
    Set_ 14 (E2 BSub (EV 14) (EV 5));
    Set_ 36 (E2 BXor (EV 3) (EV 12));
    Set_ 3 (E1 (URotr 18) (EV 36));
    Set_ 12 (E2 BSub (EV 12) (EV 3));
    Set_ 36 (E2 BXor (EV 7) (EV 10));
    Set_ 7 (E1 (URotr 49) (EV 36));
    Set_ 10 (E2 BSub (EV 10) (EV 7));
    Set_ 36 (E2 BXor (EV 15) (EV 4));
    Set_ 15 (E1 (URotr 55) (EV 36));
    Set_ 4 (E2 BSub (EV 4) (EV 15));
    Set_ 36 (E2 BXor (EV 11) (EV 6));
    Set_ 11 (E1 (URotr 10) (EV 36));
    Set_ 6 (E2 BSub (EV 6) (EV 11));
    Set_ 36 (E2 BXor (EV 13) (EV 2));
    Set_ 13 (E1 (URotr 19) (EV 36));
    Set_ 2 (E2 BSub (EV 2) (EV 13));
    Set_ 36 (E2 BXor (EV 9) (EV 0));
    Set_ 9 (E1 (URotr 38) (EV 36));
    Set_ 0 (E2 BSub (EV 0) (EV 9));
    Set_ 36 (E2 BXor (EV 15) (EV 14));
    Set_ 15 (E1 (URotr 37) (EV 36));
    Set_ 14 (E2 BSub (EV 14) (E2 BAdd (E2 BAdd (EV 15) (EV 29)) (EV 35)));
    Set_ 15 (E2 BSub (EV 15) (E2 BAdd (EV 30) (EC 16)));
    Set_ 36 (E2 BXor (EV 13) (EV 12));
    Set_ 13 (E1 (URotr 22) (EV 36));
    Set_ 12 (E2 BSub (EV 12) (E2 BAdd (EV 13) (EV 27)));
    Set_ 13 (E2 BSub (EV 13) (E2 BAdd (EV 28) (EV 34)));
    Set_ 36 (E2 BXor (EV 11) (EV 10));
    Set_ 11 (E1 (URotr 17) (EV 36));
    Set_ 10 (E2 BSub (EV 10) (E2 BAdd (EV 11) (EV 25)));
    Set_ 11 (E2 BSub (EV 11) (EV 26));
    Set_ 36 (E2 BXor (EV 9) (EV 8));
    Set_ 9 (E1 (URotr 8) (EV 36));
    Set_ 8 (E2 BSub (EV 8) (E2 BAdd (EV 9) (EV 23)));
    Set_ 9 (E2 BSub (EV 9) (EV 24));
    Set_ 36 (E2 BXor (EV 7) (EV 6));
    Set_ 7 (E1 (URotr 47) (EV 36));
    Set_ 6 (E2 BSub (EV 6) (E2 BAdd (EV 7) (EV 21)));
    Set_ 7 (E2 BSub (EV 7) (EV 22));
    Set_ 36 (E2 BXor (EV 5) (EV 4));
    Set_ 5 (E1 (URotr 8) (EV 36));
    Set_ 4 (E2 BSub (EV 4) (E2 BAdd (EV 5) (EV 19)));
    Set_ 5 (E2 BSub (EV 5) (EV 20));
    Set_ 36 (E2 BXor (EV 3) (EV 2));
    Set_ 3 (E1 (URotr 13) (EV 36));
    Set_ 2 (E2 BSub (EV 2) (E2 BAdd (EV 3) (EV 17)));
    Set_ 3 (E2 BSub (EV 3) (EV 18));
    Set_ 36 (E2 BXor (EV 1) (EV 0));
    Set_ 1 (E1 (URotr 24) (EV 36));
    Set_ 0 (E2 BSub (EV 0) (E2 BAdd (EV 1) (EV 32)));
    Set_ 1 (E2 BSub (EV 1) (EV 16))];
   [Set_ 36 (E2 BXor (EV 7) (EV 12));
    Set_ 7 (E1 (URotr 20) (EV 36));
    Set_ 12 (E2 BSub (EV 12) (EV 7));
    Set_ 36 (E2 BXor (EV 3) (EV 10));
    Set_ 3 (E1 (URotr 37) (EV 36));
    Set_ 10 (E2 BSub (EV 10) (EV 3));
    Set_ 36 (E2 BXor (EV 5) (EV 8));
    Set_ 5 (E1 (URotr 31) (EV 36));
    Set_ 8 (E2 BSub (EV 8) (EV 5));
    Set_ 36 (E2 BXor (EV 1) (EV 14));
    Set_ 1 (E1 (URotr 23) (EV 36));
    Set_ 14 (E2 BSub (EV 14) (EV 1));
    Set_ 36 (E2 BXor (EV 9) (EV 4));
    Set_ 9 (E1 (URotr 52) (EV 36));
    Set_ 4 (E2 BSub (EV 4) (EV 9));
    Set_ 36 (E2 BXor (EV 13) (EV 6));
    Set_ 13 (E1 (URotr 35) (EV 36));
    Set_ 6 (E2 BSub (EV 6) (EV 13));
    Set_ 36 (E2 BXor (EV 11) (EV 2));
    Set_ 11 (E1 (URotr 48) (EV 36));
    Set_ 2 (E2 BSub (EV 2) (EV 11));
    Set_ 36 (E2 BXor (EV 15) (EV 0));
    Set_ 15 (E1 (URotr 9) (EV 36));
    Set_ 0 (E2 BSub (EV 0) (EV 15));
    Set_ 36 (E2 BXor (EV 9) (EV 10));
    Set_ 9 (E1 (URotr 25) (EV 36));
    Set_ 10 (E2 BSub (EV 10) (EV 9));
    Set_ 36 (E2 BXor (EV 11) (EV 8));
    Set_ 11 (E1 (URotr 44) (EV 36));
    Set_ 8 (E2 BSub (EV 8) (EV 11));
    Set_ 36 (E2 BXor (EV 13) (EV 14));
    Set_ 13 (E1 (URotr 42) (EV 36));
    Set_ 14 (E2 BSub (EV 14) (EV 13));
    Set_ 36 (E2 BXor (EV 15) (EV 12));
    Set_ 15 (E1 (URotr 19) (EV 36));
    Set_ 12 (E2 BSub (EV 12) (EV 15));
    Set_ 36 (E2 BXor (EV 1) (EV 6));
    Set_ 1 (E1 (URotr 46) (EV 36));
    Set_ 6 (E2 BSub (EV 6) (EV 1));
    Set_ 36 (E2 BXor (EV 3) (EV 4));
    Set_ 3 (E1 (URotr 47) (EV 36));
    Set_ 4 (E2 BSub (EV 4) (EV 3));
    Set_ 36 (E2 BXor (EV 5) (EV 2));
    Set_ 5 (E1 (URotr 44) (EV 36));
    Set_ 2 (E2 BSub (EV 2) (EV 5));
    Set_ 36 (E2 BXor (EV 7) (EV 0));
    Set_ 7 (E1 (URotr 31) (EV 36));
    Set_ 0 (E2 BSub (EV 0) (EV 7));
    Set_ 36 (E2 BXor (EV 1) (EV 8));
    Set_ 1 (E1 (URotr 41) (EV 36));
    Set_ 8 (E2 BSub (EV 8) (EV 1));
    Set_ 36 (E2 BXor (EV 5) (EV 14));
    Set_ 5 (E1 (URotr 42) (EV 36));
    Set_ 14 (E2 BSub (EV 14) (EV 5));
    Set_ 36 (E2 BXor (EV 3) (EV 12));
    Set_ 3 (E1 (URotr 53) (EV 36));
    Set_ 12 (E2 BSub (EV 12) (EV 3));
    Set_ 36 (E2 BXor (EV 7) (EV 10));
    Set_ 7 (E1 (URotr 4) (EV 36));
    Set_ 10 (E2 BSub (EV 10) (EV 7));
    Set_ 36 (E2 BXor (EV 15) (EV 4));
    Set_ 15 (E1 (URotr 51) (EV 36));
    Set_ 4 (E2 BSub (EV 4) (EV 15));
    Set_ 36 (E2 BXor (EV 11) (EV 6));
    Set_ 11 (E1 (URotr 56) (EV 36));
    Set_ 6 (E2 BSub (EV 6) (EV 11));
    Set_ 36 (E2 BXor (EV 13) (EV 2));
    Set_ 13 (E1 (URotr 34) (EV 36));
    Set_ 2 (E2 BSub (EV 2) (EV 13));
    Set_ 36 (E2 BXor (EV 9) (EV 0));
    Set_ 9 (E1 (URotr 16) (EV 36));
    Set_ 0 (E2 BSub (EV 0) (EV 9));
    Set_ 36 (E2 BXor (EV 15) (EV 14));
    Set_ 15 (E1 (URotr 30) (EV 36));
    Set_ 14 (E2 BSub (EV 14) (E2 BAdd (E2 BAdd (EV 15) (EV 28)) (EV 34)));
    Set_ 15 (E2 BSub (EV 15) (E2 BAdd (EV 29) (EC 15)));
    Set_ 36 (E2 BXor (EV 13) (EV 12));
    Set_ 13 (E1 (URotr 44) (EV 36));
    Set_ 12 (E2 BSub (EV 12) (E2 BAdd (EV 13) (EV 26)));
    Set_ 13 (E2 BSub (EV 13) (E2 BAdd (EV 27) (EV 33)));
    Set_ 36 (E2 BXor (EV 11) (EV 10));
    Set_ 11 (E1 (URotr 47) (EV 36));
    Set_ 10 (E2 BSub (EV 10) (E2 BAdd (EV 11) (EV 24)));
    Set_ 11 (E2 BSub (EV 11) (EV 25));
    Set_ 36 (E2 BXor (EV 9) (EV 8));
    Set_ 9 (E1 (URotr 12) (EV 36));
    Set_ 8 (E2 BSub (EV 8) (E2 BAdd (EV 9) (EV 22)));
    Set_ 9 (E2 BSub (EV 9) (EV 23));
    Set_ 36 (E2 BXor (EV 7) (EV 6));
    Set_ 7 (E1 (URotr 31) (EV 36));
    Set_ 6 (E2 BSub (EV 6) (E2 BAdd (EV 7) (EV 20)));
    Set_ 7 (E2 BSub (EV 7) (EV 21));
    Set_ 36 (E2 BXor (EV 5) (EV 4));
    Set_ 5 (E1 (URotr 37) (EV 36));
    Set_ 4 (E2 BSub (EV 4) (E2 BAdd (EV 5) (EV 18)));
    Set_ 5 (E2 BSub (EV 5) (EV 19));
    Set_ 36 (E2 BXor (EV 3) (EV 2));
    Set_ 3 (E1 (URotr 9) (EV 36));
    Set_ 2 (E2 BSub (EV 2) (E2 BAdd (EV 3) (EV 16)));
    Set_ 3 (E2 BSub (EV 3) (EV 17));
    Set_ 36 (E2 BXor (EV 1) (EV 0));
    Set_ 1 (E1 (URotr 41) (EV 36));
    Set_ 0 (E2 BSub (EV 0) (E2 BAdd (EV 1) (EV 31)));
    Set_ 1 (E2 BSub (EV 1) (EV 32))];
   [Set_ 36 (E2 BXor (EV 7) (EV 12));
    Set_ 7 (E1 (URotr 25) (EV 36));
    Set_ 12 (E2 BSub (EV 12) (EV 7));
    Set_ 36 (E2 BXor (EV 3) (EV 10));
    Set_ 3 (E1 (URotr 16) (EV 36));
    Set_ 10 (E2 BSub (EV 10) (EV 3));
    Set_ 36 (E2 BXor (EV 5) (EV 8));
    Set_ 5 (E1 (URotr 28) (EV 36));
    Set_ 8 (E2 BSub (EV 8) (EV 5));
    Set_ 36 (E2 BXor (EV 1) (EV 14));
    Set_ 1 (E1 (URotr 47) (EV 36));
    Set_ 14 (E2 BSub (EV 14) (EV 1));
    Set_ 36 (E2 BXor (EV 9) (EV 4));
    Set_ 9 (E1 (URotr 41) (EV 36));
    Set_ 4 (E2 BSub (EV 4) (EV 9));
    Set_ 36 (E2 BXor (EV 13) (EV 6));
    Set_ 13 (E1 (URotr 48) (EV 36));
    Set_ 6 (E2 BSub (EV 6) (EV 13));
    Set_ 36 (E2 BXor (EV 11) (EV 2));
    Set_ 11 (E1 (URotr 20) (EV 36));
    Set_ 2 (E2 BSub (EV 2) (EV 11));
    Set_ 36 (E2 BXor (EV 15) (EV 0));
    Set_ 15 (E1 (URotr 5) (EV 36));
    Set_ 0 (E2 BSub (EV 0) (EV 15));
    Set_ 36 (E2 BXor (EV 9) (EV 10));
    Set_ 9 (E1 (URotr 17) (EV 36));
    Set_ 10 (E2 BSub (EV 10) (EV 9));
    Set_ 36 (E2 BXor (EV 11) (EV 8));
    Set_ 11 (E1 (URotr 59) (EV 36));
    Set_ 8 (E2 BSub (EV 8) (EV 11));
    Set_ 36 (E2 BXor (EV 13) (EV 14));
    Set_ 13 (E1 (URotr 41) (EV 36));
    Set_ 14 (E2 BSub (EV 14) (EV 13));
    Set_ 36 (E2 BXor (EV 15) (EV 12));
    Set_ 15 (E1 (URotr 34) (EV 36));
    Set_ 12 (E2 BSub (EV 12) (EV 15));
    Set_ 36 (E2 BXor (EV 1) (EV 6));
    Set_ 1 (E1 (URotr 13) (EV 36));
    Set_ 6 (E2 BSub (EV 6) (EV 1));
    Set_ 36 (E2 BXor (EV 3) (EV 4));
    Set_ 3 (E1 (URotr 51) (EV 36));
    Set_ 4 (E2 BSub (EV 4) (EV 3));
    Set_ 36 (E2 BXor (EV 5) (EV 2));
    Set_ 5 (E1 (URotr 4) (EV 36));
    Set_ 2 (E2 BSub (EV 2) (EV 5));
    Set_ 36 (E2 BXor (EV 7) (EV 0));
    Set_ 7 (E1 (URotr 33) (EV 36));
    Set_ 0 (E2 BSub (EV 0) (EV 7));
    Set_ 36 (E2 BXor (EV 1) (EV 8));
    Set_ 1 (E1 (URotr 52) (EV 36));
    Set_ 8 (E2 BSub (EV 8) (EV 1));
    Set_ 36 (E2 BXor (EV 5) (EV 14));
    Set_ 5 (E1 (URotr 23) (EV 36));
    Set_ 14 (E2 BSub (EV 14) (EV 5));
    Set_ 36 (E2 BXor (EV 3) (EV 12));
    Set_ 3 (E1 (URotr 18) (EV 36));
    Set_ 12 (E2 BSub (EV 12) (EV 3));
    Set_ 36 (E2 BXor (EV 7) (EV 10));
    Set_ 7 (E1 (URotr 49) (EV 36));
    Set_ 10 (E2 BSub (EV 10) (EV 7));
    Set_ 36 (E2 BXor (EV 15) (EV 4));
    Set_ 15 (E1 (URotr 55) (EV 36));
    Set_ 4 (E2 BSub (EV 4) (EV 15));
    Set_ 36 (E2 BXor (EV 11) (EV 6));
    Set_ 11 (E1 (URotr 10) (EV 36));
    Set_ 6 (E2 BSub (EV 6) (EV 11));
    Set_ 36 (E2 BXor (EV 13) (EV 2));
    Set_ 13 (E1 (URotr 19) (EV 36));
    Set_ 2 (E2 BSub (EV 2) (EV 13));
    Set_ 36 (E2 BXor (EV 9) (EV 0));
    Set_ 9 (E1 (URotr 38) (EV 36));
    Set_ 0 (E2 BSub (EV 0) (EV 9));
    Set_ 36 (E2 BXor (EV 15) (EV 14));
    Set_ 15 (E1 (URotr 37) (EV 36));
    Set_ 14 (E2 BSub (EV 14) (E2 BAdd (E2 BAdd (EV 15) (EV 27)) (EV 33)));
    Set_ 15 (E2 BSub (EV 15) (E2 BAdd (EV 28) (EC 14)));
    Set_ 36 (E2 BXor (EV 13) (EV 12));
    Set_ 13 (E1 (URotr 22) (EV 36));
    Set_ 12 (E2 BSub (EV 12) (E2 BAdd (EV 13) (EV 25)));
    Set_ 13 (E2 BSub (EV 13) (E2 BAdd (EV 26) (EV 35)));
    Set_ 36 (E2 BXor (EV 11) (EV 10));
    Set_ 11 (E1 (URotr 17) (EV 36));
    Set_ 10 (E2 BSub (EV 10) (E2 BAdd (EV 11) (EV 23)));
    Set_ 11 (E2 BSub (EV 11) (EV 24));
    Set_ 36 (E2 BXor (EV 9) (EV 8));
    Set_ 9 (E1 (URotr 8) (EV 36));
    Set_ 8 (E2 BSub (EV 8) (E2 BAdd (EV 9) (EV 21)));
    Set_ 9 (E2 BSub (EV 9) (EV 22));
    Set_ 36 (E2 BXor (EV 7) (EV 6));
    Set_ 7 (E1 (URotr 47) (EV 36));
    Set_ 6 (E2 BSub (EV 6) (E2 BAdd (EV 7) (EV 19)));
    Set_ 7 (E2 BSub (EV 7) (EV 20));
    Set_ 36 (E2 BXor (EV 5) (EV 4));
    Set_ 5 (E1 (URotr 8) (EV 36));
    Set_ 4 (E2 BSub (EV 4) (E2 BAdd (EV 5) (EV 17)));
    Set_ 5 (E2 BSub (EV 5) (EV 18));
    Set_ 36 (E2 BXor (EV 3) (EV 2));
    Set_ 3 (E1 (URotr 13) (EV 36));
    Set_ 2 (E2 BSub (EV 2) (E2 BAdd (EV 3) (EV 32)));
    Set_ 3 (E2 BSub (EV 3) (EV 16));
    Set_ 36 (E2 BXor (EV 1) (EV 0));
    Set_ 1 (E1 (URotr 24) (EV 36));
    Set_ 0 (E2 BSub (EV 0) (E2 BAdd (EV 1) (EV 30)));
    Set_ 1 (E2 BSub (EV 1) (EV 31))];
   [Set_ 36 (E2 BXor (EV 7) (EV 12));
    Set_ 7 (E1 (URotr 20) (EV 36));
    Set_ 12 (E2 BSub (EV 12) (EV 7));
    Set_ 36 (E2 BXor (EV 3) (EV 10));
    Set_ 3 (E1 (URotr 37) (EV 36));
    Set_ 10 (E2 BSub (EV 10) (EV 3));
    Set_ 36 (E2 BXor (EV 5) (EV 8));
    Set_ 5 (E1 (URotr 31) (EV 36));
    Set_ 8 (E2 BSub (EV 8) (EV 5));
    Set_ 36 (E2 BXor (EV 1) (EV 14));
    Set_ 1 (E1 (URotr 23) (EV 36));
    Set_ 14 (E2 BSub (EV 14) (EV 1));
    Set_ 36 (E2 BXor (EV 9) (EV 4));
    Set_ 9 (E1 (URotr 52) (EV 36));
    Set_ 4 (E2 BSub (EV 4) (EV 9));
    Set_ 36 (E2 BXor (EV 13) (EV 6));
    Set_ 13 (E1 (URotr 35) (EV 36));
    Set_ 6 (E2 BSub (EV 6) (EV 13));
    Set_ 36 (E2 BXor (EV 11) (EV 2));
    Set_ 11 (E1 (URotr 48) (EV 36));
    Set_ 2 (E2 BSub (EV 2) (EV 11));
    Set_ 36 (E2 BXor (EV 15) (EV 0));
    Set_ 15 (E1 (URotr 9) (EV 36));
    Set_ 0 (E2 BSub (EV 0) (EV 15));
    Set_ 36 (E2 BXor (EV 9) (EV 10));
    Set_ 9 (E1 (URotr 25) (EV 36));
    Set_ 10 (E2 BSub (EV 10) (EV 9));
    Set_ 36 (E2 BXor (EV 11) (EV 8));
    Set_ 11 (E1 (URotr 44) (EV 36));
    Set_ 8 (E2 BSub (EV 8) (EV 11));
    Set_ 36 (E2 BXor (EV 13) (EV 14));
    Set_ 13 (E1 (URotr 42) (EV 36));
    Set_ 14 (E2 BSub (EV 14) (EV 13));
    Set_ 36 (E2 BXor (EV 15) (EV 12));
    Set_ 15 (E1 (URotr 19) (EV 36));
    Set_ 12 (E2 BSub (EV 12) (EV 15));
    Set_ 36 (E2 BXor (EV 1) (EV 6));
    Set_ 1 (E1 (URotr 46) (EV 36));
    Set_ 6 (E2 BSub (EV 6) (EV 1));
    Set_ 36 (E2 BXor (EV 3) (EV 4));
    Set_ 3 (E1 (URotr 47) (EV 36));
    Set_ 4 (E2 BSub (EV 4) (EV 3));
    Set_ 36 (E2 BXor (EV 5) (EV 2));
    Set_ 5 (E1 (URotr 44) (EV 36));
    Set_ 2 (E2 BSub (EV 2) (EV 5));
    Set_ 36 (E2 BXor (EV 7) (EV 0));
    Set_ 7 (E1 (URotr 31) (EV 36));
    Set_ 0 (E2 BSub (EV 0) (EV 7));
    Set_ 36 (E2 BXor (EV 1) (EV 8));
    Set_ 1 (E1 (URotr 41) (EV 36));
    Set_ 8 (E2 BSub (EV 8) (EV 1));
    Set_ 36 (E2 BXor (EV 5) (EV 14));
    Set_ 5 (E1 (URotr 42) (EV 36));
    Set_ 14 (E2 BSub (EV 14) (EV 5));
    Set_ 36 (E2 BXor (EV 3) (EV 12));
    Set_ 3 (E1 (URotr 53) (EV 36));
    Set_ 12 (E2 BSub (EV 12) (EV 3));
    Set_ 36 (E2 BXor (EV 7) (EV 10));
    Set_ 7 (E1 (URotr 4) (EV 36));
    Set_ 10 (E2 BSub (EV 10) (EV 7));
    Set_ 36 (E2 BXor (EV 15) (EV 4));
    Set_ 15 (E1 (URotr 51) (EV 36));
    Set_ 4 (E2 BSub (EV 4) (EV 15));
    Set_ 36 (E2 BXor (EV 11) (EV 6));
    Set_ 11 (E1 (URotr 56) (EV 36));
    Set_ 6 (E2 BSub (EV 6) (EV 11));
    Set_ 36 (E2 BXor (EV 13) (EV 2));
    Set_ 13 (E1 (URotr 34) (EV 36));
    Set_ 2 (E2 BSub (EV 2) (EV 13));
    Set_ 36 (E2 BXor (EV 9) (EV 0));
    Set_ 9 (E1 (URotr 16) (EV 36));
    Set_ 0 (E2 BSub (EV 0) (EV 9));
    Set_ 36 (E2 BXor (EV 15) (EV 14));
    Set_ 15 (E1 (URotr 30) (EV 36));
    Set_ 14 (E2 BSub (EV 14) (E2 BAdd (E2 BAdd (EV 15) (EV 26)) (EV 35)));
    Set_ 15 (E2 BSub (EV 15) (E2 BAdd (EV 27) (EC 13)));
    Set_ 36 (E2 BXor (EV 13) (EV 12));
    Set_ 13 (E1 (URotr 44) (EV 36));
    Set_ 12 (E2 BSub (EV 12) (E2 BAdd (EV 13) (EV 24)));
    Set_ 13 (E2 BSub (EV 13) (E2 BAdd (EV 25) (EV 34)));
    Set_ 36 (E2 BXor (EV 11) (EV 10));
    Set_ 11 (E1 (URotr 47) (EV 36));
    Set_ 10 (E2 BSub (EV 10) (E2 BAdd (EV 11) (EV 22)));
    Set_ 11 (E2 BSub (EV 11) (EV 23));
    Set_ 36 (E2 BXor (EV 9) (EV 8));
    Set_ 9 (E1 (URotr 12) (EV 36));
    Set_ 8 (E2 BSub (EV 8) (E2 BAdd (EV 9) (EV 20)));
    Set_ 9 (E2 BSub (EV 9) (EV 21));
    Set_ 36 (E2 BXor (EV 7) (EV 6));
    Set_ 7 (E1 (URotr 31) (EV 36));
    Set_ 6 (E2 BSub (EV 6) (E2 BAdd (EV 7) (EV 18)));
    Set_ 7 (E2 BSub (EV 7) (EV 19));
    Set_ 36 (E2 BXor (EV 5) (EV 4));
    Set_ 5 (E1 (URotr 37) (EV 36));
    Set_ 4 (E2 BSub (EV 4) (E2 BAdd (EV 5) (EV 16)));
    Set_ 5 (E2 BSub (EV 5) (EV 17));
    Set_ 36 (E2 BXor (EV 3) (EV 2));
    Set_ 3 (E1 (URotr 9) (EV 36));
    Set_ 2 (E2 BSub (EV 2) (E2 BAdd (EV 3) (EV 31)));
    Set_ 3 (E2 BSub (EV 3) (EV 32));
    Set_ 36 (E2 BXor (EV 1) (EV 0));
    Set_ 1 (E1 (URotr 41) (EV 36));
    Set_ 0 (E2 BSub (EV 0) (E2 BAdd (EV 1) (EV 29)));
    Set_ 1 (E2 BSub (EV 1) (EV 30))];
   [Set_ 36 (E2 BXor (EV 7) (EV 12));
    Set_ 7 (E1 (URotr 25) (EV 36));
    Set_ 12 (E2 BSub (EV 12) (EV 7));
    Set_ 36 (E2 BXor (EV 3) (EV 10));
    Set_ 3 (E1 (URotr 16) (EV 36));
    Set_ 10 (E2 BSub (EV 10) (EV 3));
    Set_ 36 (E2 BXor (EV 5) (EV 8));
    Set_ 5 (E1 (URotr 28) (EV 36));
    Set_ 8 (E2 BSub (EV 8) (EV 5));
    Set_ 36 (E2 BXor (EV 1) (EV 14));
    Set_ 1 (E1 (URotr 47) (EV 36));
    Set_ 14 (E2 BSub (EV 14) (EV 1));
    Set_ 36 (E2 BXor (EV 9) (EV 4));
    Set_ 9 (E1 (URotr 41) (EV 36));
    Set_ 4 (E2 BSub (EV 4) (EV 9));
    Set_ 36 (E2 BXor (EV 13) (EV 6));
    Set_ 13 (E1 (URotr 48) (EV 36));
    Set_ 6 (E2 BSub (EV 6) (EV 13));
    Set_ 36 (E2 BXor (EV 11) (EV 2));
    Set_ 11 (E1 (URotr 20) (EV 36));
    Set_ 2 (E2 BSub (EV 2) (EV 11));
    Set_ 36 (E2 BXor (EV 15) (EV 0));
    Set_ 15 (E1 (URotr 5) (EV 36));
    Set_ 0 (E2 BSub (EV 0) (EV 15));
    Set_ 36 (E2 BXor (EV 9) (EV 10));
    Set_ 9 (E1 (URotr 17) (EV 36));
    Set_ 10 (E2 BSub (EV 10) (EV 9));
    Set_ 36 (E2 BXor (EV 11) (EV 8));
    Set_ 11 (E1 (URotr 59) (EV 36));
    Set_ 8 (E2 BSub (EV 8) (EV 11));
    Set_ 36 (E2 BXor (EV 13) (EV 14));
    Set_ 13 (E1 (URotr 41) (EV 36));
    Set_ 14 (E2 BSub (EV 14) (EV 13));
    Set_ 36 (E2 BXor (EV 15) (EV 12));
    Set_ 15 (E1 (URotr 34) (EV 36));
    Set_ 12 (E2 BSub (EV 12) (EV 15));
    Set_ 36 (E2 BXor (EV 1) (EV 6));
    Set_ 1 (E1 (URotr 13) (EV 36));
    Set_ 6 (E2 BSub (EV 6) (EV 1));
    Set_ 36 (E2 BXor (EV 3) (EV 4));
    Set_ 3 (E1 (URotr 51) (EV 36));
    Set_ 4 (E2 BSub (EV 4) (EV 3));
    Set_ 36 (E2 BXor (EV 5) (EV 2));
    Set_ 5 (E1 (URotr 4) (EV 36));
    Set_ 2 (E2 BSub (EV 2) (EV 5));
    Set_ 36 (E2 BXor (EV 7) (EV 0));
    Set_ 7 (E1 (URotr 33) (EV 36));
    Set_ 0 (E2 BSub (EV 0) (EV 7));
    Set_ 36 (E2 BXor (EV 1) (EV 8));
    Set_ 1 (E1 (URotr 52) (EV 36));
    Set_ 8 (E2 BSub (EV 8) (EV 1));
    Set_ 36 (E2 BXor (EV 5) (EV 14));
    Set_ 5 (E1 (URotr 23) (EV 36));
    Set_ 14 (E2 BSub (EV 14) (EV 5));
    Set_ 36 (E2 BXor (EV 3) (EV 12));
    Set_ 3 (E1 (URotr 18) (EV 36));
    Set_ 12 (E2 BSub (EV 12) (EV 3));
    Set_ 36 (E2 BXor (EV 7) (EV 10));
    Set_ 7 (E1 (URotr 49) (EV 36));
    Set_ 10 (E2 BSub (EV 10) (EV 7));
    Set_ 36 (E2 BXor (EV 15) (EV 4));
    Set_ 15 (E1 (URotr 55) (EV 36));
    Set_ 4 (E2 BSub (EV 4) (EV 15));
    Set_ 36 (E2 BXor (EV 11) (EV 6));
    Set_ 11 (E1 (URotr 10) (EV 36));
    Set_ 6 (E2 BSub (EV 6) (EV 11));
    Set_ 36 (E2 BXor (EV 13) (EV 2));
    Set_ 13 (E1 (URotr 19) (EV 36));
    Set_ 2 (E2 BSub (EV 2) (EV 13));
    Set_ 36 (E2 BXor (EV 9) (EV 0));
    Set_ 9 (E1 (URotr 38) (EV 36));
    Set_ 0 (E2 BSub (EV 0) (EV 9));
    Set_ 36 (E2 BXor (EV 15) (EV 14));
    Set_ 15 (E1 (URotr 37) (EV 36));
    Set_ 14 (E2 BSub (EV 14) (E2 BAdd (E2 BAdd (EV 15) (EV 25)) (EV 34)));
    Set_ 15 (E2 BSub (EV 15) (E2 BAdd (EV 26) (EC 12)));
    Set_ 36 (E2 BXor (EV 13) (EV 12));
    Set_ 13 (E1 (URotr 22) (EV 36));
    Set_ 12 (E2 BSub (EV 12) (E2 BAdd (EV 13) (EV 23)));
    Set_ 13 (E2 BSub (EV 13) (E2 BAdd (EV 24) (EV 33)));
    Set_ 36 (E2 BXor (EV 11) (EV 10));
    Set_ 11 (E1 (URotr 17) (EV 36));
    Set_ 10 (E2 BSub (EV 10) (E2 BAdd (EV 11) (EV 21)));
    Set_ 11 (E2 BSub (EV 11) (EV 22));
    Set_ 36 (E2 BXor (EV 9) (EV 8));
    Set_ 9 (E1 (URotr 8) (EV 36));
    Set_ 8 (E2 BSub (EV 8) (E2 BAdd (EV 9) (EV 19)));
    Set_ 9 (E2 BSub (EV 9) (EV 20));
    Set_ 36 (E2 BXor (EV 7) (EV 6));
    Set_ 7 (E1 (URotr 47) (EV 36));
    Set_ 6 (E2 BSub (EV 6) (E2 BAdd (EV 7) (EV 17)));
    Set_ 7 (E2 BSub (EV 7) (EV 18));
    Set_ 36 (E2 BXor (EV 5) (EV 4));
    Set_ 5 (E1 (URotr 8) (EV 36));
    Set_ 4 (E2 BSub (EV 4) (E2 BAdd (EV 5) (EV 32)));
    Set_ 5 (E2 BSub (EV 5) (EV 16));
    Set_ 36 (E2 BXor (EV 3) (EV 2));
    Set_ 3 (E1 (URotr 13) (EV 36));
    Set_ 2 (E2 BSub (EV 2) (E2 BAdd (EV 3) (EV 30)));
    Set_ 3 (E2 BSub (EV 3) (EV 31));
    Set_ 36 (E2 BXor (EV 1) (EV 0));
    Set_ 1 (E1 (URotr 24) (EV 36));
    Set_ 0 (E2 BSub (EV 0) (E2 BAdd (EV 1) (EV 28)));
    Set_ 1 (E2 BSub (EV 1) (EV 29))];
   [Set_ 36 (E2 BXor (EV 7) (EV 12));
    Set_ 7 (E1 (URotr 20) (EV 36));
    Set_ 12 (E2 BSub (EV 12) (EV 7));
    Set_ 36 (E2 BXor (EV 3) (EV 10));
    Set_ 3 (E1 (URotr 37) (EV 36));
    Set_ 10 (E2 BSub (EV 10) (EV 3));
    Set_ 36 (E2 BXor (EV 5) (EV 8));
    Set_ 5 (E1 (URotr 31) (EV 36));
    Set_ 8 (E2 BSub (EV 8) (EV 5));
    Set_ 36 (E2 BXor (EV 1) (EV 14));
    Set_ 1 (E1 (URotr 23) (EV 36));
    Set_ 14 (E2 BSub (EV 14) (EV 1));
    Set_ 36 (E2 BXor (EV 9) (EV 4));
    Set_ 9 (E1 (URotr 52) (EV 36));
    Set_ 4 (E2 BSub (EV 4) (EV 9));
    Set_ 36 (E2 BXor (EV 13) (EV 6));
    Set_ 13 (E1 (URotr 35) (EV 36));
    Set_ 6 (E2 BSub (EV 6) (EV 13));
    Set_ 36 (E2 BXor (EV 11) (EV 2));
    Set_ 11 (E1 (URotr 48) (EV 36));
    Set_ 2 (E2 BSub (EV 2) (EV 11));
    Set_ 36 (E2 BXor (EV 15) (EV 0));
    Set_ 15 (E1 (URotr 9) (EV 36));
    Set_ 0 (E2 BSub (EV 0) (EV 15));
    Set_ 36 (E2 BXor (EV 9) (EV 10));
    Set_ 9 (E1 (URotr 25) (EV 36));
    Set_ 10 (E2 BSub (EV 10) (EV 9));
    Set_ 36 (E2 BXor (EV 11) (EV 8));
    Set_ 11 (E1 (URotr 44) (EV 36));
    Set_ 8 (E2 BSub (EV 8) (EV 11));
    Set_ 36 (E2 BXor (EV 13) (EV 14));
    Set_ 13 (E1 (URotr 42) (EV 36));
    Set_ 14 (E2 BSub (EV 14) (EV 13));
    Set_ 36 (E2 BXor (EV 15) (EV 12));
    Set_ 15 (E1 (URotr 19) (EV 36));
    Set_ 12 (E2 BSub (EV 12) (EV 15));
    Set_ 36 (E2 BXor (EV 1) (EV 6));
    Set_ 1 (E1 (URotr 46) (EV 36));
    Set_ 6 (E2 BSub (EV 6) (EV 1));
    Set_ 36 (E2 BXor (EV 3) (EV 4));
    Set_ 3 (E1 (URotr 47) (EV 36));
    Set_ 4 (E2 BSub (EV 4) (EV 3));
    Set_ 36 (E2 BXor (EV 5) (EV 2));
    Set_ 5 (E1 (URotr 44) (EV 36));
    Set_ 2 (E2 BSub (EV 2) (EV 5));
    Set_ 36 (E2 BXor (EV 7) (EV 0));
    Set_ 7 (E1 (URotr 31) (EV 36));
    Set_ 0 (E2 BSub (EV 0) (EV 7));
    Set_ 36 (E2 BXor (EV 1) (EV 8));
    Set_ 1 (E1 (URotr 41) (EV 36));
    Set_ 8 (E2 BSub (EV 8) (EV 1));
    Set_ 36 (E2 BXor (EV 5) (EV 14));
    Set_ 5 (E1 (URotr 42) (EV 36));
    Set_ 14 (E2 BSub (EV 14) (EV 5));
    Set_ 36 (E2 BXor (EV 3) (EV 12));
    Set_ 3 (E1 (URotr 53) (EV 36));
    Set_ 12 (E2 BSub (EV 12) (EV 3));
    Set_ 36 (E2 BXor (EV 7) (EV 10));
    Set_ 7 (E1 (URotr 4) (EV 36));
    Set_ 10 (E2 BSub (EV 10) (EV 7));
    Set_ 36 (E2 BXor (EV 15) (EV 4));
    Set_ 15 (E1 (URotr 51) (EV 36));
    Set_ 4 (E2 BSub (EV 4) (EV 15));
    Set_ 36 (E2 BXor (EV 11) (EV 6));
    Set_ 11 (E1 (URotr 56) (EV 36));
    Set_ 6 (E2 BSub (EV 6) (EV 11));
    Set_ 36 (E2 BXor (EV 13) (EV 2));
    Set_ 13 (E1 (URotr 34) (EV 36));
    Set_ 2 (E2 BSub (EV 2) (EV 13));
    Set_ 36 (E2 BXor (EV 9) (EV 0));
    Set_ 9 (E1 (URotr 16) (EV 36));
    Set_ 0 (E2 BSub (EV 0) (EV 9));
    Set_ 36 (E2 BXor (EV 15) (EV 14));
    Set_ 15 (E1 (URotr 30) (EV 36));
    Set_ 14 (E2 BSub (EV 14) (E2 BAdd (E2 BAdd (EV 15) (EV 24)) (EV 33)));
    Set_ 15 (E2 BSub (EV 15) (E2 BAdd (EV 25) (EC 11)));
    Set_ 36 (E2 BXor (EV 13) (EV 12));
    Set_ 13 (E1 (URotr 44) (EV 36));
    Set_ 12 (E2 BSub (EV 12) (E2 BAdd (EV 13) (EV 22)));
    Set_ 13 (E2 BSub (EV 13) (E2 BAdd (EV 23) (EV 35)));
    Set_ 36 (E2 BXor (EV 11) (EV 10));
    Set_ 11 (E1 (URotr 47) (EV 36));
    Set_ 10 (E2 BSub (EV 10) (E2 BAdd (EV 11) (EV 20)));
    Set_ 11 (E2 BSub (EV 11) (EV 21));
    Set_ 36 (E2 BXor (EV 9) (EV 8));
    Set_ 9 (E1 (URotr 12) (EV 36));
    Set_ 8 (E2 BSub (EV 8) (E2 BAdd (EV 9) (EV 18)));
    Set_ 9 (E2 BSub (EV 9) (EV 19));
    Set_ 36 (E2 BXor (EV 7) (EV 6));
    Set_ 7 (E1 (URotr 31) (EV 36));
    Set_ 6 (E2 BSub (EV 6) (E2 BAdd (EV 7) (EV 16)));
    Set_ 7 (E2 BSub (EV 7) (EV 17));
    Set_ 36 (E2 BXor (EV 5) (EV 4));
    Set_ 5 (E1 (URotr 37) (EV 36));
    Set_ 4 (E2 BSub (EV 4) (E2 BAdd (EV 5) (EV 31)));
    Set_ 5 (E2 BSub (EV 5) (EV 32));
    Set_ 36 (E2 BXor (EV 3) (EV 2));
    Set_ 3 (E1 (URotr 9) (EV 36));
    Set_ 2 (E2 BSub (EV 2) (E2 BAdd (EV 3) (EV 29)));
    Set_ 3 (E2 BSub (EV 3) (EV 30));
    Set_ 36 (E2 BXor (EV 1) (EV 0));
    Set_ 1 (E1 (URotr 41) (EV 36));
    Set_ 0 (E2 BSub (EV 0) (E2 BAdd (EV 1) (EV 27)));
    Set_ 1 (E2 BSub (EV 1) (EV 28))];
   [Set_ 36 (E2 BXor (EV 7) (EV 12));
    Set_ 7 (E1 (URotr 25) (EV 36));
    Set_ 12 (E2 BSub (EV 12) (EV 7));
    Set_ 36 (E2 BXor (EV 3) (EV 10));
    Set_ 3 (E1 (URotr 16) (EV 36));
    Set_ 10 (E2 BSub (EV 10) (EV 3));
    Set_ 36 (E2 BXor (EV 5) (EV 8));
    Set_ 5 (E1 (URotr 28) (EV 36));
    Set_ 8 (E2 BSub (EV 8) (EV 5));
    Set_ 36 (E2 BXor (EV 1) (EV 14));
    Set_ 1 (E1 (URotr 47) (EV 36));
    Set_ 14 (E2 BSub (EV 14) (EV 1));
    Set_ 36 (E2 BXor (EV 9) (EV 4));
    Set_ 9 (E1 (URotr 41) (EV 36));
    Set_ 4 (E2 BSub (EV 4) (EV 9));
    Set_ 36 (E2 BXor (EV 13) (EV 6));
    Set_ 13 (E1 (URotr 48) (EV 36));
    Set_ 6 (E2 BSub (EV 6) (EV 13));
    Set_ 36 (E2 BXor (EV 11) (EV 2));
    Set_ 11 (E1 (URotr 20) (EV 36));
    Set_ 2 (E2 BSub (EV 2) (EV 11));
    Set_ 36 (E2 BXor (EV 15) (EV 0));
    Set_ 15 (E1 (URotr 5) (EV 36));
    Set_ 0 (E2 BSub (EV 0) (EV 15));
    Set_ 36 (E2 BXor (EV 9) (EV 10));
    Set_ 9 (E1 (URotr 17) (EV 36));
    Set_ 10 (E2 BSub (EV 10) (EV 9));
    Set_ 36 (E2 BXor (EV 11) (EV 8));
    Set_ 11 (E1 (URotr 59) (EV 36));
    Set_ 8 (E2 BSub (EV 8) (EV 11));
    Set_ 36 (E2 BXor (EV 13) (EV 14));
    Set_ 13 (E1 (URotr 41) (EV 36));
    Set_ 14 (E2 BSub (EV 14) (EV 13));
    Set_ 36 (E2 BXor (EV 15) (EV 12));
    Set_ 15 (E1 (URotr 34) (EV 36));
    Set_ 12 (E2 BSub (EV 12) (EV 15));
    Set_ 36 (E2 BXor (EV 1) (EV 6));
    Set_ 1 (E1 (URotr 13) (EV 36));
    Set_ 6 (E2 BSub (EV 6) (EV 1));
    Set_ 36 (E2 BXor (EV 3) (EV 4));
    Set_ 3 (E1 (URotr 51) (EV 36));
    Set_ 4 (E2 BSub (EV 4) (EV 3));
    Set_ 36 (E2 BXor (EV 5) (EV 2));
    Set_ 5 (E1 (URotr 4) (EV 36));
    Set_ 2 (E2 BSub (EV 2) (EV 5));
    Set_ 36 (E2 BXor (EV 7) (EV 0));
    Set_ 7 (E1 (URotr 33) (EV 36));
    Set_ 0 (E2 BSub (EV 0) (EV 7));
    Set_ 36 (E2 BXor (EV 1) (EV 8));
    Set_ 1 (E1 (URotr 52) (EV 36));
    Set_ 8 (E2 BSub (EV 8) (EV 1));
    Set_ 36 (E2 BXor (EV 5) (EV 14));
    Set_ 5 (E1 (URotr 23) (EV 36));
    Set_ 14 (E2 BSub (EV 14) (EV 5));
    Set_ 36 (E2 BXor (EV 3) (EV 12));
    Set_ 3 (E1 (URotr 18) (EV 36));
    Set_ 12 (E2 BSub (EV 12) (EV 3));
    Set_ 36 (E2 BXor (EV 7) (EV 10));
    Set_ 7 (E1 (URotr 49) (EV 36));
    Set_ 10 (E2 BSub (EV 10) (EV 7));
    Set_ 36 (E2 BXor (EV 15) (EV 4));
    Set_ 15 (E1 (URotr 55) (EV 36));
    Set_ 4 (E2 BSub (EV 4) (EV 15));
    Set_ 36 (E2 BXor (EV 11) (EV 6));
    Set_ 11 (E1 (URotr 10) (EV 36));
    Set_ 6 (E2 BSub (EV 6) (EV 11));
    Set_ 36 (E2 BXor (EV 13) (EV 2));
    Set_ 13 (E1 (URotr 19) (EV 36));
    Set_ 2 (E2 BSub (EV 2) (EV 13));
    Set_ 36 (E2 BXor (EV 9) (EV 0));
    Set_ 9 (E1 (URotr 38) (EV 36));
    Set_ 0 (E2 BSub (EV 0) (EV 9));
    Set_ 36 (E2 BXor (EV 15) (EV 14));
    Set_ 15 (E1 (URotr 37) (EV 36));
    Set_ 14 (E2 BSub (EV 14) (E2 BAdd (E2 BAdd (EV 15) (EV 23)) (EV 35)));
    Set_ 15 (E2 BSub (EV 15) (E2 BAdd (EV 24) (EC 10)));
    Set_ 36 (E2 BXor (EV 13) (EV 12));
    Set_ 13 (E1 (URotr 22) (EV 36));
    Set_ 12 (E2 BSub (EV 12) (E2 BAdd (EV 13) (EV 21)));
    Set_ 13 (E2 BSub (EV 13) (E2 BAdd (EV 22) (EV 34)));
    Set_ 36 (E2 BXor (EV 11) (EV 10));
    Set_ 11 (E1 (URotr 17) (EV 36));
    Set_ 10 (E2 BSub (EV 10) (E2 BAdd (EV 11) (EV 19)));
    Set_ 11 (E2 BSub (EV 11) (EV 20));
    Set_ 36 (E2 BXor (EV 9) (EV 8));
    Set_ 9 (E1 (URotr 8) (EV 36));
    Set_ 8 (E2 BSub (EV 8) (E2 BAdd (EV 9) (EV 17)));
    Set_ 9 (E2 BSub (EV 9) (EV 18));
    Set_ 36 (E2 BXor (EV 7) (EV 6));
    Set_ 7 (E1 (URotr 47) (EV 36));
    Set_ 6 (E2 BSub (EV 6) (E2 BAdd (EV 7) (EV 32)));
    Set_ 7 (E2 BSub (EV 7) (EV 16));
    Set_ 36 (E2 BXor (EV 5) (EV 4));
    Set_ 5 (E1 (URotr 8) (EV 36));
    Set_ 4 (E2 BSub (EV 4) (E2 BAdd (EV 5) (EV 30)));
    Set_ 5 (E2 BSub (EV 5) (EV 31));
    Set_ 36 (E2 BXor (EV 3) (EV 2));
    Set_ 3 (E1 (URotr 13) (EV 36));
    Set_ 2 (E2 BSub (EV 2) (E2 BAdd (EV 3) (EV 28)));
    Set_ 3 (E2 BSub (EV 3) (EV 29));
    Set_ 36 (E2 BXor (EV 1) (EV 0));
    Set_ 1 (E1 (URotr 24) (EV 36));
    Set_ 0 (E2 BSub (EV 0) (E2 BAdd (EV 1) (EV 26)));
    Set_ 1 (E2 BSub (EV 1) (EV 27))];
   [Set_ 36 (E2 BXor (EV 7) (EV 12));
    Set_ 7 (E1 (URotr 20) (EV 36));
    Set_ 12 (E2 BSub (EV 12) (EV 7));
    Set_ 36 (E2 BXor (EV 3) (EV 10));
    Set_ 3 (E1 (URotr 37) (EV 36));
    Set_ 10 (E2 BSub (EV 10) (EV 3));
    Set_ 36 (E2 BXor (EV 5) (EV 8));
    Set_ 5 (E1 (URotr 31) (EV 36));
    Set_ 8 (E2 BSub (EV 8) (EV 5));
    Set_ 36 (E2 BXor (EV 1) (EV 14));
    Set_ 1 (E1 (URotr 23) (EV 36));
    Set_ 14 (E2 BSub (EV 14) (EV 1));
    Set_ 36 (E2 BXor (EV 9) (EV 4));
    Set_ 9 (E1 (URotr 52) (EV 36));
    Set_ 4 (E2 BSub (EV 4) (EV 9));
    Set_ 36 (E2 BXor (EV 13) (EV 6));
    Set_ 13 (E1 (URotr 35) (EV 36));
    Set_ 6 (E2 BSub (EV 6) (EV 13));
    Set_ 36 (E2 BXor (EV 11) (EV 2));
    Set_ 11 (E1 (URotr 48) (EV 36));
    Set_ 2 (E2 BSub (EV 2) (EV 11));
    Set_ 36 (E2 BXor (EV 15) (EV 0));
    Set_ 15 (E1 (URotr 9) (EV 36));
    Set_ 0 (E2 BSub (EV 0) (EV 15));
    Set_ 36 (E2 BXor (EV 9) (EV 10));
    Set_ 9 (E1 (URotr 25) (EV 36));
    Set_ 10 (E2 BSub (EV 10) (EV 9));
    Set_ 36 (E2 BXor (EV 11) (EV 8));
    Set_ 11 (E1 (URotr 44) (EV 36));
    Set_ 8 (E2 BSub (EV 8) (EV 11));
    Set_ 36 (E2 BXor (EV 13) (EV 14));
    Set_ 13 (E1 (URotr 42) (EV 36));
    Set_ 14 (E2 BSub (EV 14) (EV 13));
    Set_ 36 (E2 BXor (EV 15) (EV 12));
    Set_ 15 (E1 (URotr 19) (EV 36));
    Set_ 12 (E2 BSub (EV 12) (EV 15));
    Set_ 36 (E2 BXor (EV 1) (EV 6));
    Set_ 1 (E1 (URotr 46) (EV 36));
    Set_ 6 (E2 BSub (EV 6) (EV 1));
    Set_ 36 (E2 BXor (EV 3) (EV 4));
    Set_ 3 (E1 (URotr 47) (EV 36));
    Set_ 4 (E2 BSub (EV 4) (EV 3));
    Set_ 36 (E2 BXor (EV 5) (EV 2));
    Set_ 5 (E1 (URotr 44) (EV 36));
    Set_ 2 (E2 BSub (EV 2) (EV 5));
    Set_ 36 (E2 BXor (EV 7) (EV 0));
    Set_ 7 (E1 (URotr 31) (EV 36));
    Set_ 0 (E2 BSub (EV 0) (EV 7));
    Set_ 36 (E2 BXor (EV 1) (EV 8));
    Set_ 1 (E1 (URotr 41) (EV 36));
    Set_ 8 (E2 BSub (EV 8) (EV 1));
    Set_ 36 (E2 BXor (EV 5) (EV 14));
    Set_ 5 (E1 (URotr 42) (EV 36));
    Set_ 14 (E2 BSub (EV 14) (EV 5));
    Set_ 36 (E2 BXor (EV 3) (EV 12));
    Set_ 3 (E1 (URotr 53) (EV 36));
    Set_ 12 (E2 BSub (EV 12) (EV 3));
    Set_ 36 (E2 BXor (EV 7) (EV 10));
    Set_ 7 (E1 (URotr 4) (EV 36));
    Set_ 10 (E2 BSub (EV 10) (EV 7));
    Set_ 36 (E2 BXor (EV 15) (EV 4));
    Set_ 15 (E1 (URotr 51) (EV 36));
    Set_ 4 (E2 BSub (EV 4) (EV 15));
    Set_ 36 (E2 BXor (EV 11) (EV 6));
    Set_ 11 (E1 (URotr 56) (EV 36));
    Set_ 6 (E2 BSub (EV 6) (EV 11));
    Set_ 36 (E2 BXor (EV 13) (EV 2));
    Set_ 13 (E1 (URotr 34) (EV 36));
    Set_ 2 (E2 BSub (EV 2) (EV 13));
    Set_ 36 (E2 BXor (EV 9) (EV 0));
    Set_ 9 (E1 (URotr 16) (EV 36));
    Set_ 0 (E2 BSub (EV 0) (EV 9));
    Set_ 36 (E2 BXor (EV 15) (EV 14));
    Set_ 15 (E1 (URotr 30) (EV 36));
    Set_ 14 (E2 BSub (EV 14) (E2 BAdd (E2 BAdd (EV 15) (EV 22)) (EV 34)));
    Set_ 15 (E2 BSub (EV 15) (E2 BAdd (EV 23) (EC 9)));
    Set_ 36 (E2 BXor (EV 13) (EV 12));
    Set_ 13 (E1 (URotr 44) (EV 36));
    Set_ 12 (E2 BSub (EV 12) (E2 BAdd (EV 13) (EV 20)));
    Set_ 13 (E2 BSub (EV 13) (E2 BAdd (EV 21) (EV 33)));
    Set_ 36 (E2 BXor (EV 11) (EV 10));
    Set_ 11 (E1 (URotr 47) (EV 36));
    Set_ 10 (E2 BSub (EV 10) (E2 BAdd (EV 11) (EV 18)));
    Set_ 11 (E2 BSub (EV 11) (EV 19));
    Set_ 36 (E2 BXor (EV 9) (EV 8));
    Set_ 9 (E1 (URotr 12) (EV 36));
    Set_ 8 (E2 BSub (EV 8) (E2 BAdd (EV 9) (EV 16)));
    Set_ 9 (E2 BSub (EV 9) (EV 17));
    Set_ 36 (E2 BXor (EV 7) (EV 6));
    Set_ 7 (E1 (URotr 31) (EV 36));
    Set_ 6 (E2 BSub (EV 6) (E2 BAdd (EV 7) (EV 31)));
    Set_ 7 (E2 BSub (EV 7) (EV 32));
    Set_ 36 (E2 BXor (EV 5) (EV 4));
    Set_ 5 (E1 (URotr 37) (EV 36));
    Set_ 4 (E2 BSub (EV 4) (E2 BAdd (EV 5) (EV 29)));
    Set_ 5 (E2 BSub (EV 5) (EV 30));
    Set_ 36 (E2 BXor (EV 3) (EV 2));
    Set_ 3 (E1 (URotr 9) (EV 36));
    Set_ 2 (E2 BSub (EV 2) (E2 BAdd (EV 3) (EV 27)));
    Set_ 3 (E2 BSub (EV 3) (EV 28));
    Set_ 36 (E2 BXor (EV 1) (EV 0));
    Set_ 1 (E1 (URotr 41) (EV 36));
    Set_ 0 (E2 BSub (EV 0) (E2 BAdd (EV 1) (EV 25)));
    Set_ 1 (E2 BSub (EV 1) (EV 26))];
   [Set_ 36 (E2 BXor (EV 7) (EV 12));
    Set_ 7 (E1 (URotr 25) (EV 36));
    Set_ 12 (E2 BSub (EV 12) (EV 7));
    Set_ 36 (E2 BXor (EV 3) (EV 10));
    Set_ 3 (E1 (URotr 16) (EV 36));
    Set_ 10 (E2 BSub (EV 10) (EV 3));
    Set_ 36 (E2 BXor (EV 5) (EV 8));
    Set_ 5 (E1 (URotr 28) (EV 36));
    Set_ 8 (E2 BSub (EV 8) (EV 5));
    Set_ 36 (E2 BXor (EV 1) (EV 14));
    Set_ 1 (E1 (URotr 47) (EV 36));
    Set_ 14 (E2 BSub (EV 14) (EV 1));
    Set_ 36 (E2 BXor (EV 9) (EV 4));
    Set_ 9 (E1 (URotr 41) (EV 36));
    Set_ 4 (E2 BSub (EV 4) (EV 9));
    Set_ 36 (E2 BXor (EV 13) (EV 6));
    Set_ 13 (E1 (URotr 48) (EV 36));
    Set_ 6 (E2 BSub (EV 6) (EV 13));
    Set_ 36 (E2 BXor (EV 11) (EV 2));
    Set_ 11 (E1 (URotr 20) (EV 36));
    Set_ 2 (E2 BSub (EV 2) (EV 11));
    Set_ 36 (E2 BXor (EV 15) (EV 0));
    Set_ 15 (E1 (URotr 5) (EV 36));
    Set_ 0 (E2 BSub (EV 0) (EV 15));
    Set_ 36 (E2 BXor (EV 9) (EV 10));
    Set_ 9 (E1 (URotr 17) (EV 36));
    Set_ 10 (E2 BSub (EV 10) (EV 9));
    Set_ 36 (E2 BXor (EV 11) (EV 8));
    Set_ 11 (E1 (URotr 59) (EV 36));
    Set_ 8 (E2 BSub (EV 8) (EV 11));
    Set_ 36 (E2 BXor (EV 13) (EV 14));
    Set_ 13 (E1 (URotr 41) (EV 36));
    Set_ 14 (E2 BSub (EV 14) (EV 13));
    Set_ 36 (E2 BXor (EV 15) (EV 12));
    Set_ 15 (E1 (URotr 34) (EV 36));
    Set_ 12 (E2 BSub (EV 12) (EV 15));
    Set_ 36 (E2 BXor (EV 1) (EV 6));
    Set_ 1 (E1 (URotr 13) (EV 36));
    Set_ 6 (E2 BSub (EV 6) (EV 1));
    Set_ 36 (E2 BXor (EV 3) (EV 4));
    Set_ 3 (E1 (URotr 51) (EV 36));
    Set_ 4 (E2 BSub (EV 4) (EV 3));
    Set_ 36 (E2 BXor (EV 5) (EV 2));
    Set_ 5 (E1 (URotr 4) (EV 36));
    Set_ 2 (E2 BSub (EV 2) (EV 5));
    Set_ 36 (E2 BXor (EV 7) (EV 0));
    Set_ 7 (E1 (URotr 33) (EV 36));
    Set_ 0 (E2 BSub (EV 0) (EV 7));
    Set_ 36 (E2 BXor (EV 1) (EV 8));
    Set_ 1 (E1 (URotr 52) (EV 36));
    Set_ 8 (E2 BSub (EV 8) (EV 1));
    Set_ 36 (E2 BXor (EV 5) (EV 14));
    Set_ 5 (E1 (URotr 23) (EV 36));
    Set_ 14 (E2 BSub (EV 14) (EV 5));
    Set_ 36 (E2 BXor (EV 3) (EV 12));
    Set_ 3 (E1 (URotr 18) (EV 36));
    Set_ 12 (E2 BSub (EV 12) (EV 3));
    Set_ 36 (E2 BXor (EV 7) (EV 10));
    Set_ 7 (E1 (URotr 49) (EV 36));
    Set_ 10 (E2 BSub (EV 10) (EV 7));
    Set_ 36 (E2 BXor (EV 15) (EV 4));
    Set_ 15 (E1 (URotr 55) (EV 36));
    Set_ 4 (E2 BSub (EV 4) (EV 15));
    Set_ 36 (E2 BXor (EV 11) (EV 6));
    Set_ 11 (E1 (URotr 10) (EV 36));
    Set_ 6 (E2 BSub (EV 6) (EV 11));
    Set_ 36 (E2 BXor (EV 13) (EV 2));
    Set_ 13 (E1 (URotr 19) (EV 36));
    Set_ 2 (E2 BSub (EV 2) (EV 13));
    Set_ 36 (E2 BXor (EV 9) (EV 0));
    Set_ 9 (E1 (URotr 38) (EV 36));
    Set_ 0 (E2 BSub (EV 0) (EV 9));
    Set_ 36 (E2 BXor (EV 15) (EV 14));
    Set_ 15 (E1 (URotr 37) (EV 36));
    Set_ 14 (E2 BSub (EV 14) (E2 BAdd (E2 BAdd (EV 15) (EV 21)) (EV 33)));
    Set_ 15 (E2 BSub (EV 15) (E2 BAdd (EV 22) (EC 8)));
    Set_ 36 (E2 BXor (EV 13) (EV 12));
    Set_ 13 (E1 (URotr 22) (EV 36));
    Set_ 12 (E2 BSub (EV 12) (E2 BAdd (EV 13) (EV 19)));
    Set_ 13 (E2 BSub (EV 13) (E2 BAdd (EV 20) (EV 35)));
    Set_ 36 (E2 BXor (EV 11) (EV 10));
    Set_ 11 (E1 (URotr 17) (EV 36));
    Set_ 10 (E2 BSub (EV 10) (E2 BAdd (EV 11) (EV 17)));
    Set_ 11 (E2 BSub (EV 11) (EV 18));
    Set_ 36 (E2 BXor (EV 9) (EV 8));
    Set_ 9 (E1 (URotr 8) (EV 36));
    Set_ 8 (E2 BSub (EV 8) (E2 BAdd (EV 9) (EV 32)));
    Set_ 9 (E2 BSub (EV 9) (EV 16));
    Set_ 36 (E2 BXor (EV 7) (EV 6));
    Set_ 7 (E1 (URotr 47) (EV 36));
    Set_ 6 (E2 BSub (EV 6) (E2 BAdd (EV 7) (EV 30)));
    Set_ 7 (E2 BSub (EV 7) (EV 31));
    Set_ 36 (E2 BXor (EV 5) (EV 4));
    Set_ 5 (E1 (URotr 8) (EV 36));
    Set_ 4 (E2 BSub (EV 4) (E2 BAdd (EV 5) (EV 28)));
    Set_ 5 (E2 BSub (EV 5) (EV 29));
    Set_ 36 (E2 BXor (EV 3) (EV 2));
    Set_ 3 (E1 (URotr 13) (EV 36));
    Set_ 2 (E2 BSub (EV 2) (E2 BAdd (EV 3) (EV 26)));
    Set_ 3 (E2 BSub (EV 3) (EV 27));
    Set_ 36 (E2 BXor (EV 1) (EV 0));
    Set_ 1 (E1 (URotr 24) (EV 36));
    Set_ 0 (E2 BSub (EV 0) (E2 BAdd (EV 1) (EV 24)));
    Set_ 1 (E2 BSub (EV 1) (EV 25))];
   [Set_ 36 (E2 BXor (EV 7) (EV 12));
    Set_ 7 (E1 (URotr 20) (EV 36));
    Set_ 12 (E2 BSub (EV 12) (EV 7));
    Set_ 36 (E2 BXor (EV 3) (EV 10));
    Set_ 3 (E1 (URotr 37) (EV 36));
    Set_ 10 (E2 BSub (EV 10) (EV 3));
    Set_ 36 (E2 BXor (EV 5) (EV 8));
    Set_ 5 (E1 (URotr 31) (EV 36));
    Set_ 8 (E2 BSub (EV 8) (EV 5));
    Set_ 36 (E2 BXor (EV 1) (EV 14));
    Set_ 1 (E1 (URotr 23) (EV 36));
    Set_ 14 (E2 BSub (EV 14) (EV 1));
    Set_ 36 (E2 BXor (EV 9) (EV 4));
    Set_ 9 (E1 (URotr 52) (EV 36));
    Set_ 4 (E2 BSub (EV 4) (EV 9));
    Set_ 36 (E2 BXor (EV 13) (EV 6));
    Set_ 13 (E1 (URotr 35) (EV 36));
    Set_ 6 (E2 BSub (EV 6) (EV 13));
    Set_ 36 (E2 BXor (EV 11) (EV 2));
    Set_ 11 (E1 (URotr 48) (EV 36));
    Set_ 2 (E2 BSub (EV 2) (EV 11));
    Set_ 36 (E2 BXor (EV 15) (EV 0));
    Set_ 15 (E1 (URotr 9) (EV 36));
    Set_ 0 (E2 BSub (EV 0) (EV 15));
    Set_ 36 (E2 BXor (EV 9) (EV 10));
    Set_ 9 (E1 (URotr 25) (EV 36));
    Set_ 10 (E2 BSub (EV 10) (EV 9));
    Set_ 36 (E2 BXor (EV 11) (EV 8));
    Set_ 11 (E1 (URotr 44) (EV 36));
    Set_ 8 (E2 BSub (EV 8) (EV 11));
    Set_ 36 (E2 BXor (EV 13) (EV 14));
    Set_ 13 (E1 (URotr 42) (EV 36));
    Set_ 14 (E2 BSub (EV 14) (EV 13));
    Set_ 36 (E2 BXor (EV 15) (EV 12));
    Set_ 15 (E1 (URotr 19) (EV 36));
    Set_ 12 (E2 BSub (EV 12) (EV 15));
    Set_ 36 (E2 BXor (EV 1) (EV 6));
    Set_ 1 (E1 (URotr 46) (EV 36));
    Set_ 6 (E2 BSub (EV 6) (EV 1));
    Set_ 36 (E2 BXor (EV 3) (EV 4));
    Set_ 3 (E1 (URotr 47) (EV 36));
    Set_ 4 (E2 BSub (EV 4) (EV 3));
    Set_ 36 (E2 BXor (EV 5) (EV 2));
    Set_ 5 (E1 (URotr 44) (EV 36));
    Set_ 2 (E2 BSub (EV 2) (EV 5));
    Set_ 36 (E2 BXor (EV 7) (EV 0));
    Set_ 7 (E1 (URotr 31) (EV 36));
    Set_ 0 (E2 BSub (EV 0) (EV 7));
    Set_ 36 (E2 BXor (EV 1) (EV 8));
    Set_ 1 (E1 (URotr 41) (EV 36));
    Set_ 8 (E2 BSub (EV 8) (EV 1));
    Set_ 36 (E2 BXor (EV 5) (EV 14));
    Set_ 5 (E1 (URotr 42) (EV 36));
    Set_ 14 (E2 BSub (EV 14) (EV 5));
    Set_ 36 (E2 BXor (EV 3) (EV 12));
    Set_ 3 (E1 (URotr 53) (EV 36));
    Set_ 12 (E2 BSub (EV 12) (EV 3));
    Set_ 36 (E2 BXor (EV 7) (EV 10));
    Set_ 7 (E1 (URotr 4) (EV 36));
    Set_ 10 (E2 BSub (EV 10) (EV 7));
    Set_ 36 (E2 BXor (EV 15) (EV 4));
    Set_ 15 (E1 (URotr 51) (EV 36));
    Set_ 4 (E2 BSub (EV 4) (EV 15));
    Set_ 36 (E2 BXor (EV 11) (EV 6));
    Set_ 11 (E1 (URotr 56) (EV 36));
    Set_ 6 (E2 BSub (EV 6) (EV 11));
    Set_ 36 (E2 BXor (EV 13) (EV 2));
    Set_ 13 (E1 (URotr 34) (EV 36));
    Set_ 2 (E2 BSub (EV 2) (EV 13));
    Set_ 36 (E2 BXor (EV 9) (EV 0));
    Set_ 9 (E1 (URotr 16) (EV 36));
    Set_ 0 (E2 BSub (EV 0) (EV 9));
    Set_ 36 (E2 BXor (EV 15) (EV 14));
    Set_ 15 (E1 (URotr 30) (EV 36));
    Set_ 14 (E2 BSub (EV 14) (E2 BAdd (E2 BAdd (EV 15) (EV 20)) (EV 35)));
    Set_ 15 (E2 BSub (EV 15) (E2 BAdd (EV 21) (EC 7)));
    Set_ 36 (E2 BXor (EV 13) (EV 12));
    Set_ 13 (E1 (URotr 44) (EV 36));
    Set_ 12 (E2 BSub (EV 12) (E2 BAdd (EV 13) (EV 18)));
    Set_ 13 (E2 BSub (EV 13) (E2 BAdd (EV 19) (EV 34)));
    Set_ 36 (E2 BXor (EV 11) (EV 10));
    Set_ 11 (E1 (URotr 47) (EV 36));
    Set_ 10 (E2 BSub (EV 10) (E2 BAdd (EV 11) (EV 16)));
    Set_ 11 (E2 BSub (EV 11) (EV 17));
    Set_ 36 (E2 BXor (EV 9) (EV 8));
    Set_ 9 (E1 (URotr 12) (EV 36));
    Set_ 8 (E2 BSub (EV 8) (E2 BAdd (EV 9) (EV 31)));
    Set_ 9 (E2 BSub (EV 9) (EV 32));
    Set_ 36 (E2 BXor (EV 7) (EV 6));
    Set_ 7 (E1 (URotr 31) (EV 36));
    Set_ 6 (E2 BSub (EV 6) (E2 BAdd (EV 7) (EV 29)));
    Set_ 7 (E2 BSub (EV 7) (EV 30));
    Set_ 36 (E2 BXor (EV 5) (EV 4));
    Set_ 5 (E1 (URotr 37) (EV 36));
    Set_ 4 (E2 BSub (EV 4) (E2 BAdd (EV 5) (EV 27)));
    Set_ 5 (E2 BSub (EV 5) (EV 28));
    Set_ 36 (E2 BXor (EV 3) (EV 2));
    Set_ 3 (E1 (URotr 9) (EV 36));
    Set_ 2 (E2 BSub (EV 2) (E2 BAdd (EV 3) (EV 25)));
    Set_ 3 (E2 BSub (EV 3) (EV 26));
    Set_ 36 (E2 BXor (EV 1) (EV 0));
    Set_ 1 (E1 (URotr 41) (EV 36));
    Set_ 0 (E2 BSub (EV 0) (E2 BAdd (EV 1) (EV 23)));
    Set_ 1 (E2 BSub (EV 1) (EV 24))];
   [Set_ 36 (E2 BXor (EV 7) (EV 12));
    Set_ 7 (E1 (URotr 25) (EV 36));
    Set_ 12 (E2 BSub (EV 12) (EV 7));
    Set_ 36 (E2 BXor (EV 3) (EV 10));
    Set_ 3 (E1 (URotr 16) (EV 36));
    Set_ 10 (E2 BSub (EV 10) (EV 3));
    Set_ 36 (E2 BXor (EV 5) (EV 8));
    Set_ 5 (E1 (URotr 28) (EV 36));
    Set_ 8 (E2 BSub (EV 8) (EV 5));
    Set_ 36 (E2 BXor (EV 1) (EV 14));
    Set_ 1 (E1 (URotr 47) (EV 36));
    Set_ 14 (E2 BSub (EV 14) (EV 1));
    Set_ 36 (E2 BXor (EV 9) (EV 4));
    Set_ 9 (E1 (URotr 41) (EV 36));
    Set_ 4 (E2 BSub (EV 4) (EV 9));
    Set_ 36 (E2 BXor (EV 13) (EV 6));
    Set_ 13 (E1 (URotr 48) (EV 36));
    Set_ 6 (E2 BSub (EV 6) (EV 13));
    Set_ 36 (E2 BXor (EV 11) (EV 2));
    Set_ 11 (E1 (URotr 20) (EV 36));
    Set_ 2 (E2 BSub (EV 2) (EV 11));
    Set_ 36 (E2 BXor (EV 15) (EV 0));
    Set_ 15 (E1 (URotr 5) (EV 36));
    Set_ 0 (E2 BSub (EV 0) (EV 15));
    Set_ 36 (E2 BXor (EV 9) (EV 10));
    Set_ 9 (E1 (URotr 17) (EV 36));
    Set_ 10 (E2 BSub (EV 10) (EV 9));
    Set_ 36 (E2 BXor (EV 11) (EV 8));
    Set_ 11 (E1 (URotr 59) (EV 36));
    Set_ 8 (E2 BSub (EV 8) (EV 11));
    Set_ 36 (E2 BXor (EV 13) (EV 14));
    Set_ 13 (E1 (URotr 41) (EV 36));
    Set_ 14 (E2 BSub (EV 14) (EV 13));
    Set_ 36 (E2 BXor (EV 15) (EV 12));
    Set_ 15 (E1 (URotr 34) (EV 36));
    Set_ 12 (E2 BSub (EV 12) (EV 15));
    Set_ 36 (E2 BXor (EV 1) (EV 6));
    Set_ 1 (E1 (URotr 13) (EV 36));
    Set_ 6 (E2 BSub (EV 6) (EV 1));
    Set_ 36 (E2 BXor (EV 3) (EV 4));
    Set_ 3 (E1 (URotr 51) (EV 36));
    Set_ 4 (E2 BSub (EV 4) (EV 3));
    Set_ 36 (E2 BXor (EV 5) (EV 2));
    Set_ 5 (E1 (URotr 4) (EV 36));
    Set_ 2 (E2 BSub (EV 2) (EV 5));
    Set_ 36 (E2 BXor (EV 7) (EV 0));
    Set_ 7 (E1 (URotr 33) (EV 36));
    Set_ 0 (E2 BSub (EV 0) (EV 7));
    Set_ 36 (E2 BXor (EV 1) (EV 8));
    Set_ 1 (E1 (URotr 52) (EV 36));
    Set_ 8 (E2 BSub (EV 8) (EV 1));
    Set_ 36 (E2 BXor (EV 5) (EV 14));
    Set_ 5 (E1 (URotr 23) (EV 36));
    Set_ 14 (E2 BSub (EV 14) (EV 5));
    Set_ 36 (E2 BXor (EV 3) (EV 12));
    Set_ 3 (E1 (URotr 18) (EV 36));
    Set_ 12 (E2 BSub (EV 12) (EV 3));
    Set_ 36 (E2 BXor (EV 7) (EV 10));
    Set_ 7 (E1 (URotr 49) (EV 36));
    Set_ 10 (E2 BSub (EV 10) (EV 7));
    Set_ 36 (E2 BXor (EV 15) (EV 4));
    Set_ 15 (E1 (URotr 55) (EV 36));
    Set_ 4 (E2 BSub (EV 4) (EV 15));
    Set_ 36 (E2 BXor (EV 11) (EV 6));
    Set_ 11 (E1 (URotr 10) (EV 36));
    Set_ 6 (E2 BSub (EV 6) (EV 11));
    Set_ 36 (E2 BXor (EV 13) (EV 2));
    Set_ 13 (E1 (URotr 19) (EV 36));
    Set_ 2 (E2 BSub (EV 2) (EV 13));
    Set_ 36 (E2 BXor (EV 9) (EV 0));
    Set_ 9 (E1 (URotr 38) (EV 36));
    Set_ 0 (E2 BSub (EV 0) (EV 9));
    Set_ 36 (E2 BXor (EV 15) (EV 14));
    Set_ 15 (E1 (URotr 37) (EV 36));
    Set_ 14 (E2 BSub (EV 14) (E2 BAdd (E2 BAdd (EV 15) (EV 19)) (EV 34)));
    Set_ 15 (E2 BSub (EV 15) (E2 BAdd (EV 20) (EC 6)));
    Set_ 36 (E2 BXor (EV 13) (EV 12));
    Set_ 13 (E1 (URotr 22) (EV 36));
    Set_ 12 (E2 BSub (EV 12) (E2 BAdd (EV 13) (EV 17)));
    Set_ 13 (E2 BSub (EV 13) (E2 BAdd (EV 18) (EV 33)));
    Set_ 36 (E2 BXor (EV 11) (EV 10));
    Set_ 11 (E1 (URotr 17) (EV 36));
    Set_ 10 (E2 BSub (EV 10) (E2 BAdd (EV 11) (EV 32)));
    Set_ 11 (E2 BSub (EV 11) (EV 16));
    Set_ 36 (E2 BXor (EV 9) (EV 8));
    Set_ 9 (E1 (URotr 8) (EV 36));
    Set_ 8 (E2 BSub (EV 8) (E2 BAdd (EV 9) (EV 30)));
    Set_ 9 (E2 BSub (EV 9) (EV 31));
    Set_ 36 (E2 BXor (EV 7) (EV 6));
    Set_ 7 (E1 (URotr 47) (EV 36));
    Set_ 6 (E2 BSub (EV 6) (E2 BAdd (EV 7) (EV 28)));
    Set_ 7 (E2 BSub (EV 7) (EV 29));
    Set_ 36 (E2 BXor (EV 5) (EV 4));
    Set_ 5 (E1 (URotr 8) (EV 36));
    Set_ 4 (E2 BSub (EV 4) (E2 BAdd (EV 5) (EV 26)));
    Set_ 5 (E2 BSub (EV 5) (EV 27));
    Set_ 36 (E2 BXor (EV 3) (EV 2));
    Set_ 3 (E1 (URotr 13) (EV 36));
    Set_ 2 (E2 BSub (EV 2) (E2 BAdd (EV 3) (EV 24)));
    Set_ 3 (E2 BSub (EV 3) (EV 25));
    Set_ 36 (E2 BXor (EV 1) (EV 0));
    Set_ 1 (E1 (URotr 24) (EV 36));
    Set_ 0 (E2 BSub (EV 0) (E2 BAdd (EV 1) (EV 22)));
    Set_ 1 (E2 BSub (EV 1) (EV 23))];
   [Set_ 36 (E2 BXor (EV 7) (EV 12));
    Set_ 7 (E1 (URotr 20) (EV 36));
    Set_ 12 (E2 BSub (EV 12) (EV 7));
    Set_ 36 (E2 BXor (EV 3) (EV 10));
    Set_ 3 (E1 (URotr 37) (EV 36));
    Set_ 10 (E2 BSub (EV 10) (EV 3));
    Set_ 36 (E2 BXor (EV 5) (EV 8));
    Set_ 5 (E1 (URotr 31) (EV 36));
    Set_ 8 (E2 BSub (EV 8) (EV 5));
    Set_ 36 (E2 BXor (EV 1) (EV 14));
    Set_ 1 (E1 (URotr 23) (EV 36));
    Set_ 14 (E2 BSub (EV 14) (EV 1));
    Set_ 36 (E2 BXor (EV 9) (EV 4));
    Set_ 9 (E1 (URotr 52) (EV 36));
    Set_ 4 (E2 BSub (EV 4) (EV 9));
    Set_ 36 (E2 BXor (EV 13) (EV 6));
    Set_ 13 (E1 (URotr 35) (EV 36));
    Set_ 6 (E2 BSub (EV 6) (EV 13));
    Set_ 36 (E2 BXor (EV 11) (EV 2));
    Set_ 11 (E1 (URotr 48) (EV 36));
    Set_ 2 (E2 BSub (EV 2) (EV 11));
    Set_ 36 (E2 BXor (EV 15) (EV 0));
    Set_ 15 (E1 (URotr 9) (EV 36));
    Set_ 0 (E2 BSub (EV 0) (EV 15));
    Set_ 36 (E2 BXor (EV 9) (EV 10));
    Set_ 9 (E1 (URotr 25) (EV 36));
    Set_ 10 (E2 BSub (EV 10) (EV 9));
    Set_ 36 (E2 BXor (EV 11) (EV 8));
    Set_ 11 (E1 (URotr 44) (EV 36));
    Set_ 8 (E2 BSub (EV 8) (EV 11));
    Set_ 36 (E2 BXor (EV 13) (EV 14));
    Set_ 13 (E1 (URotr 42) (EV 36));
    Set_ 14 (E2 BSub (EV 14) (EV 13));
    Set_ 36 (E2 BXor (EV 15) (EV 12));
    Set_ 15 (E1 (URotr 19) (EV 36));
    Set_ 12 (E2 BSub (EV 12) (EV 15));
    Set_ 36 (E2 BXor (EV 1) (EV 6));
    Set_ 1 (E1 (URotr 46) (EV 36));
    Set_ 6 (E2 BSub (EV 6) (EV 1));
    Set_ 36 (E2 BXor (EV 3) (EV 4));
    Set_ 3 (E1 (URotr 47) (EV 36));
    Set_ 4 (E2 BSub (EV 4) (EV 3));
    Set_ 36 (E2 BXor (EV 5) (EV 2));
    Set_ 5 (E1 (URotr 44) (EV 36));
    Set_ 2 (E2 BSub (EV 2) (EV 5));
    Set_ 36 (E2 BXor (EV 7) (EV 0));
    Set_ 7 (E1 (URotr 31) (EV 36));
    Set_ 0 (E2 BSub (EV 0) (EV 7));
    Set_ 36 (E2 BXor (EV 1) (EV 8));
    Set_ 1 (E1 (URotr 41) (EV 36));
    Set_ 8 (E2 BSub (EV 8) (EV 1));
    Set_ 36 (E2 BXor (EV 5) (EV 14));
    Set_ 5 (E1 (URotr 42) (EV 36));
    Set_ 14 (E2 BSub (EV 14) (EV 5));
    Set_ 36 (E2 BXor (EV 3) (EV 12));
    Set_ 3 (E1 (URotr 53) (EV 36));
    Set_ 12 (E2 BSub (EV 12) (EV 3));
    Set_ 36 (E2 BXor (EV 7) (EV 10));
    Set_ 7 (E1 (URotr 4) (EV 36));
    Set_ 10 (E2 BSub (EV 10) (EV 7));
    Set_ 36 (E2 BXor (EV 15) (EV 4));
    Set_ 15 (E1 (URotr 51) (EV 36));
    Set_ 4 (E2 BSub (EV 4) (EV 15));
    Set_ 36 (E2 BXor (EV 11) (EV 6));
    Set_ 11 (E1 (URotr 56) (EV 36));
    Set_ 6 (E2 BSub (EV 6) (EV 11));
    Set_ 36 (E2 BXor (EV 13) (EV 2));
    Set_ 13 (E1 (URotr 34) (EV 36));
    Set_ 2 (E2 BSub (EV 2) (EV 13));
    Set_ 36 (E2 BXor (EV 9) (EV 0));
    Set_ 9 (E1 (URotr 16) (EV 36));
    Set_ 0 (E2 BSub (EV 0) (EV 9));
    Set_ 36 (E2 BXor (EV 15) (EV 14));
    Set_ 15 (E1 (URotr 30) (EV 36));
    Set_ 14 (E2 BSub (EV 14) (E2 BAdd (E2 BAdd (EV 15) (EV 18)) (EV 33)));
    Set_ 15 (E2 BSub (EV 15) (E2 BAdd (EV 19) (EC 5)));
    Set_ 36 (E2 BXor (EV 13) (EV 12));
    Set_ 13 (E1 (URotr 44) (EV 36));
    Set_ 12 (E2 BSub (EV 12) (E2 BAdd (EV 13) (EV 16)));
    Set_ 13 (E2 BSub (EV 13) (E2 BAdd (EV 17) (EV 35)));
    Set_ 36 (E2 BXor (EV 11) (EV 10));
    Set_ 11 (E1 (URotr 47) (EV 36));
    Set_ 10 (E2 BSub (EV 10) (E2 BAdd (EV 11) (EV 31)));
    Set_ 11 (E2 BSub (EV 11) (EV 32));
    Set_ 36 (E2 BXor (EV 9) (EV 8));
    Set_ 9 (E1 (URotr 12) (EV 36));
    Set_ 8 (E2 BSub (EV 8) (E2 BAdd (EV 9) (EV 29)));
    Set_ 9 (E2 BSub (EV 9) (EV 30));
    Set_ 36 (E2 BXor (EV 7) (EV 6));
    Set_ 7 (E1 (URotr 31) (EV 36));
    Set_ 6 (E2 BSub (EV 6) (E2 BAdd (EV 7) (EV 27)));
    Set_ 7 (E2 BSub (EV 7) (EV 28));
    Set_ 36 (E2 BXor (EV 5) (EV 4));
    Set_ 5 (E1 (URotr 37) (EV 36));
    Set_ 4 (E2 BSub (EV 4) (E2 BAdd (EV 5) (EV 25)));
    Set_ 5 (E2 BSub (EV 5) (EV 26));
    Set_ 36 (E2 BXor (EV 3) (EV 2));
    Set_ 3 (E1 (URotr 9) (EV 36));
    Set_ 2 (E2 BSub (EV 2) (E2 BAdd (EV 3) (EV 23)));
    Set_ 3 (E2 BSub (EV 3) (EV 24));
    Set_ 36 (E2 BXor (EV 1) (EV 0));
    Set_ 1 (E1 (URotr 41) (EV 36));
    Set_ 0 (E2 BSub (EV 0) (E2 BAdd (EV 1) (EV 21)));
    Set_ 1 (E2 BSub (EV 1) (EV 22))];
   [Set_ 36 (E2 BXor (EV 7) (EV 12));
    Set_ 7 (E1 (URotr 25) (EV 36));
    Set_ 12 (E2 BSub (EV 12) (EV 7));
    Set_ 36 (E2 BXor (EV 3) (EV 10));
    Set_ 3 (E1 (URotr 16) (EV 36));
    Set_ 10 (E2 BSub (EV 10) (EV 3));
    Set_ 36 (E2 BXor (EV 5) (EV 8));
    Set_ 5 (E1 (URotr 28) (EV 36));
    Set_ 8 (E2 BSub (EV 8) (EV 5));
    Set_ 36 (E2 BXor (EV 1) (EV 14));
    Set_ 1 (E1 (URotr 47) (EV 36));
    Set_ 14 (E2 BSub (EV 14) (EV 1));
    Set_ 36 (E2 BXor (EV 9) (EV 4));
    Set_ 9 (E1 (URotr 41) (EV 36));
    Set_ 4 (E2 BSub (EV 4) (EV 9));
    Set_ 36 (E2 BXor (EV 13) (EV 6));
    Set_ 13 (E1 (URotr 48) (EV 36));
    Set_ 6 (E2 BSub (EV 6) (EV 13));
    Set_ 36 (E2 BXor (EV 11) (EV 2));
    Set_ 11 (E1 (URotr 20) (EV 36));
    Set_ 2 (E2 BSub (EV 2) (EV 11));
    Set_ 36 (E2 BXor (EV 15) (EV 0));
    Set_ 15 (E1 (URotr 5) (EV 36));
    Set_ 0 (E2 BSub (EV 0) (EV 15));
    Set_ 36 (E2 BXor (EV 9) (EV 10));
    Set_ 9 (E1 (URotr 17) (EV 36));
    Set_ 10 (E2 BSub (EV 10) (EV 9));
    Set_ 36 (E2 BXor (EV 11) (EV 8));
    Set_ 11 (E1 (URotr 59) (EV 36));
    Set_ 8 (E2 BSub (EV 8) (EV 11));
    Set_ 36 (E2 BXor (EV 13) (EV 14));
    Set_ 13 (E1 (URotr 41) (EV 36));
    Set_ 14 (E2 BSub (EV 14) (EV 13));
    Set_ 36 (E2 BXor (EV 15) (EV 12));
    Set_ 15 (E1 (URotr 34) (EV 36));
    Set_ 12 (E2 BSub (EV 12) (EV 15));
    Set_ 36 (E2 BXor (EV 1) (EV 6));
    Set_ 1 (E1 (URotr 13) (EV 36));
    Set_ 6 (E2 BSub (EV 6) (EV 1));
    Set_ 36 (E2 BXor (EV 3) (EV 4));
    Set_ 3 (E1 (URotr 51) (EV 36));
    Set_ 4 (E2 BSub (EV 4) (EV 3));
    Set_ 36 (E2 BXor (EV 5) (EV 2));
    Set_ 5 (E1 (URotr 4) (EV 36));
    Set_ 2 (E2 BSub (EV 2) (EV 5));
    Set_ 36 (E2 BXor (EV 7) (EV 0));
    Set_ 7 (E1 (URotr 33) (EV 36));
    Set_ 0 (E2 BSub (EV 0) (EV 7));
    Set_ 36 (E2 BXor (EV 1) (EV 8));
    Set_ 1 (E1 (URotr 52) (EV 36));
    Set_ 8 (E2 BSub (EV 8) (EV 1));
    Set_ 36 (E2 BXor (EV 5) (EV 14));
    Set_ 5 (E1 (URotr 23) (EV 36));
    Set_ 14 (E2 BSub (EV 14) (EV 5));
    Set_ 36 (E2 BXor (EV 3) (EV 12));
    Set_ 3 (E1 (URotr 18) (EV 36));
    Set_ 12 (E2 BSub (EV 12) (EV 3));
    Set_ 36 (E2 BXor (EV 7) (EV 10));
    Set_ 7 (E1 (URotr 49) (EV 36));
    Set_ 10 (E2 BSub (EV 10) (EV 7));
    Set_ 36 (E2 BXor (EV 15) (EV 4));
    Set_ 15 (E1 (URotr 55) (EV 36));
    Set_ 4 (E2 BSub (EV 4) (EV 15));
    Set_ 36 (E2 BXor (EV 11) (EV 6));
    Set_ 11 (E1 (URotr 10) (EV 36));
    Set_ 6 (E2 BSub (EV 6) (EV 11));
    Set_ 36 (E2 BXor (EV 13) (EV 2));
    Set_ 13 (E1 (URotr 19) (EV 36));
    Set_ 2 (E2 BSub (EV 2) (EV 13));
    Set_ 36 (E2 BXor (EV 9) (EV 0));
    Set_ 9 (E1 (URotr 38) (EV 36));
    Set_ 0 (E2 BSub (EV 0) (EV 9));
    Set_ 36 (E2 BXor (EV 15) (EV 14));
    Set_ 15 (E1 (URotr 37) (EV 36));
    Set_ 14 (E2 BSub (EV 14) (E2 BAdd (E2 BAdd (EV 15) (EV 17)) (EV 35)));
    Set_ 15 (E2 BSub (EV 15) (E2 BAdd (EV 18) (EC 4)));
    Set_ 36 (E2 BXor (EV 13) (EV 12));
    Set_ 13 (E1 (URotr 22) (EV 36));
    Set_ 12 (E2 BSub (EV 12) (E2 BAdd (EV 13) (EV 32)));
    Set_ 13 (E2 BSub (EV 13) (E2 BAdd (EV 16) (EV 34)));
    Set_ 36 (E2 BXor (EV 11) (EV 10));
    Set_ 11 (E1 (URotr 17) (EV 36));
    Set_ 10 (E2 BSub (EV 10) (E2 BAdd (EV 11) (EV 30)));
    Set_ 11 (E2 BSub (EV 11) (EV 31));
    Set_ 36 (E2 BXor (EV 9) (EV 8));
    Set_ 9 (E1 (URotr 8) (EV 36));
    Set_ 8 (E2 BSub (EV 8) (E2 BAdd (EV 9) (EV 28)));
    Set_ 9 (E2 BSub (EV 9) (EV 29));
    Set_ 36 (E2 BXor (EV 7) (EV 6));
    Set_ 7 (E1 (URotr 47) (EV 36));
    Set_ 6 (E2 BSub (EV 6) (E2 BAdd (EV 7) (EV 26)));
    Set_ 7 (E2 BSub (EV 7) (EV 27));
    Set_ 36 (E2 BXor (EV 5) (EV 4));
    Set_ 5 (E1 (URotr 8) (EV 36));
    Set_ 4 (E2 BSub (EV 4) (E2 BAdd (EV 5) (EV 24)));
    Set_ 5 (E2 BSub (EV 5) (EV 25));
    Set_ 36 (E2 BXor (EV 3) (EV 2));
    Set_ 3 (E1 (URotr 13) (EV 36));
    Set_ 2 (E2 BSub (EV 2) (E2 BAdd (EV 3) (EV 22)));
    Set_ 3 (E2 BSub (EV 3) (EV 23));
    Set_ 36 (E2 BXor (EV 1) (EV 0));
    Set_ 1 (E1 (URotr 24) (EV 36));
    Set_ 0 (E2 BSub (EV 0) (E2 BAdd (EV 1) (EV 20)));
    Set_ 1 (E2 BSub (EV 1) (EV 21))];
   [Set_ 36 (E2 BXor (EV 7) (EV 12));
    Set_ 7 (E1 (URotr 20) (EV 36));
    Set_ 12 (E2 BSub (EV 12) (EV 7));
    Set_ 36 (E2 BXor (EV 3) (EV 10));
    Set_ 3 (E1 (URotr 37) (EV 36));
    Set_ 10 (E2 BSub (EV 10) (EV 3));
    Set_ 36 (E2 BXor (EV 5) (EV 8));
    Set_ 5 (E1 (URotr 31) (EV 36));
    Set_ 8 (E2 BSub (EV 8) (EV 5));
    Set_ 36 (E2 BXor (EV 1) (EV 14));
    Set_ 1 (E1 (URotr 23) (EV 36));
    Set_ 14 (E2 BSub (EV 14) (EV 1));
    Set_ 36 (E2 BXor (EV 9) (EV 4));
    Set_ 9 (E1 (URotr 52) (EV 36));
    Set_ 4 (E2 BSub (EV 4) (EV 9));
    Set_ 36 (E2 BXor (EV 13) (EV 6));
    Set_ 13 (E1 (URotr 35) (EV 36));
    Set_ 6 (E2 BSub (EV 6) (EV 13));
    Set_ 36 (E2 BXor (EV 11) (EV 2));
    Set_ 11 (E1 (URotr 48) (EV 36));
    Set_ 2 (E2 BSub (EV 2) (EV 11));
    Set_ 36 (E2 BXor (EV 15) (EV 0));
    Set_ 15 (E1 (URotr 9) (EV 36));
    Set_ 0 (E2 BSub (EV 0) (EV 15));
    Set_ 36 (E2 BXor (EV 9) (EV 10));
    Set_ 9 (E1 (URotr 25) (EV 36));
    Set_ 10 (E2 BSub (EV 10) (EV 9));
    Set_ 36 (E2 BXor (EV 11) (EV 8));
    Set_ 11 (E1 (URotr 44) (EV 36));
    Set_ 8 (E2 BSub (EV 8) (EV 11));
    Set_ 36 (E2 BXor (EV 13) (EV 14));
    Set_ 13 (E1 (URotr 42) (EV 36));
    Set_ 14 (E2 BSub (EV 14) (EV 13));
    Set_ 36 (E2 BXor (EV 15) (EV 12));
    Set_ 15 (E1 (URotr 19) (EV 36));
    Set_ 12 (E2 BSub (EV 12) (EV 15));
    Set_ 36 (E2 BXor (EV 1) (EV 6));
    Set_ 1 (E1 (URotr 46) (EV 36));
    Set_ 6 (E2 BSub (EV 6) (EV 1));
    Set_ 36 (E2 BXor (EV 3) (EV 4));
    Set_ 3 (E1 (URotr 47) (EV 36));
    Set_ 4 (E2 BSub (EV 4) (EV 3));
    Set_ 36 (E2 BXor (EV 5) (EV 2));
    Set_ 5 (E1 (URotr 44) (EV 36));
    Set_ 2 (E2 BSub (EV 2) (EV 5));
    Set_ 36 (E2 BXor (EV 7) (EV 0));
    Set_ 7 (E1 (URotr 31) (EV 36));
    Set_ 0 (E2 BSub (EV 0) (EV 7));
    Set_ 36 (E2 BXor (EV 1) (EV 8));
    Set_ 1 (E1 (URotr 41) (EV 36));
    Set_ 8 (E2 BSub (EV 8) (EV 1));
    Set_ 36 (E2 BXor (EV 5) (EV 14));
    Set_ 5 (E1 (URotr 42) (EV 36));
    Set_ 14 (E2 BSub (EV 14) (EV 5));
    Set_ 36 (E2 BXor (EV 3) (EV 12));
    Set_ 3 (E1 (URotr 53) (EV 36));
    Set_ 12 (E2 BSub (EV 12) (EV 3));
    Set_ 36 (E2 BXor (EV 7) (EV 10));
    Set_ 7 (E1 (URotr 4) (EV 36));
    Set_ 10 (E2 BSub (EV 10) (EV 7));
    Set_ 36 (E2 BXor (EV 15) (EV 4));
    Set_ 15 (E1 (URotr 51) (EV 36));
    Set_ 4 (E2 BSub (EV 4) (EV 15));
    Set_ 36 (E2 BXor (EV 11) (EV 6));
    Set_ 11 (E1 (URotr 56) (EV 36));
    Set_ 6 (E2 BSub (EV 6) (EV 11));
    Set_ 36 (E2 BXor (EV 13) (EV 2));
    Set_ 13 (E1 (URotr 34) (EV 36));
    Set_ 2 (E2 BSub (EV 2) (EV 13));
    Set_ 36 (E2 BXor (EV 9) (EV 0));
    Set_ 9 (E1 (URotr 16) (EV 36));
    Set_ 0 (E2 BSub (EV 0) (EV 9));
    Set_ 36 (E2 BXor (EV 15) (EV 14));
    Set_ 15 (E1 (URotr 30) (EV 36));
    Set_ 14 (E2 BSub (EV 14) (E2 BAdd (E2 BAdd (EV 15) (EV 16)) (EV 34)));
    Set_ 15 (E2 BSub (EV 15) (E2 BAdd (EV 17) (EC 3)));
    Set_ 36 (E2 BXor (EV 13) (EV 12));
    Set_ 13 (E1 (URotr 44) (EV 36));
    Set_ 12 (E2 BSub (EV 12) (E2 BAdd (EV 13) (EV 31)));
    Set_ 13 (E2 BSub (EV 13) (E2 BAdd (EV 32) (EV 33)));
    Set_ 36 (E2 BXor (EV 11) (EV 10));
    Set_ 11 (E1 (URotr 47) (EV 36));
    Set_ 10 (E2 BSub (EV 10) (E2 BAdd (EV 11) (EV 29)));
    Set_ 11 (E2 BSub (EV 11) (EV 30));
    Set_ 36 (E2 BXor (EV 9) (EV 8));
    Set_ 9 (E1 (URotr 12) (EV 36));
    Set_ 8 (E2 BSub (EV 8) (E2 BAdd (EV 9) (EV 27)));
    Set_ 9 (E2 BSub (EV 9) (EV 28));
    Set_ 36 (E2 BXor (EV 7) (EV 6));
    Set_ 7 (E1 (URotr 31) (EV 36));
    Set_ 6 (E2 BSub (EV 6) (E2 BAdd (EV 7) (EV 25)));
    Set_ 7 (E2 BSub (EV 7) (EV 26));
    Set_ 36 (E2 BXor (EV 5) (EV 4));
    Set_ 5 (E1 (URotr 37) (EV 36));
    Set_ 4 (E2 BSub (EV 4) (E2 BAdd (EV 5) (EV 23)));
    Set_ 5 (E2 BSub (EV 5) (EV 24));
    Set_ 36 (E2 BXor (EV 3) (EV 2));
    Set_ 3 (E1 (URotr 9) (EV 36));
    Set_ 2 (E2 BSub (EV 2) (E2 BAdd (EV 3) (EV 21)));
    Set_ 3 (E2 BSub (EV 3) (EV 22));
    Set_ 36 (E2 BXor (EV 1) (EV 0));
    Set_ 1 (E1 (URotr 41) (EV 36));
    Set_ 0 (E2 BSub (EV 0) (E2 BAdd (EV 1) (EV 19)));
    Set_ 1 (E2 BSub (EV 1) (EV 20))];
   [Set_ 36 (E2 BXor (EV 7) (EV 12));
    Set_ 7 (E1 (URotr 25) (EV 36));
    Set_ 12 (E2 BSub (EV 12) (EV 7));
    Set_ 36 (E2 BXor (EV 3) (EV 10));
    Set_ 3 (E1 (URotr 16) (EV 36));
    Set_ 10 (E2 BSub (EV 10) (EV 3));
    Set_ 36 (E2 BXor (EV 5) (EV 8));
    Set_ 5 (E1 (URotr 28) (EV 36));
    Set_ 8 (E2 BSub (EV 8) (EV 5));
    Set_ 36 (E2 BXor (EV 1) (EV 14));
    Set_ 1 (E1 (URotr 47) (EV 36));
    Set_ 14 (E2 BSub (EV 14) (EV 1));
    Set_ 36 (E2 BXor (EV 9) (EV 4));
    Set_ 9 (E1 (URotr 41) (EV 36));
    Set_ 4 (E2 BSub (EV 4) (EV 9));
    Set_ 36 (E2 BXor (EV 13) (EV 6));
    Set_ 13 (E1 (URotr 48) (EV 36));
    Set_ 6 (E2 BSub (EV 6) (EV 13));
    Set_ 36 (E2 BXor (EV 11) (EV 2));
    Set_ 11 (E1 (URotr 20) (EV 36));
    Set_ 2 (E2 BSub (EV 2) (EV 11));
    Set_ 36 (E2 BXor (EV 15) (EV 0));
    Set_ 15 (E1 (URotr 5) (EV 36));
    Set_ 0 (E2 BSub (EV 0) (EV 15));
    Set_ 36 (E2 BXor (EV 9) (EV 10));
    Set_ 9 (E1 (URotr 17) (EV 36));
    Set_ 10 (E2 BSub (EV 10) (EV 9));
    Set_ 36 (E2 BXor (EV 11) (EV 8));
    Set_ 11 (E1 (URotr 59) (EV 36));
    Set_ 8 (E2 BSub (EV 8) (EV 11));
    Set_ 36 (E2 BXor (EV 13) (EV 14));
    Set_ 13 (E1 (URotr 41) (EV 36));
    Set_ 14 (E2 BSub (EV 14) (EV 13));
    Set_ 36 (E2 BXor (EV 15) (EV 12));
    Set_ 15 (E1 (URotr 34) (EV 36));
    Set_ 12 (E2 BSub (EV 12) (EV 15));
    Set_ 36 (E2 BXor (EV 1) (EV 6));
    Set_ 1 (E1 (URotr 13) (EV 36));
    Set_ 6 (E2 BSub (EV 6) (EV 1));
    Set_ 36 (E2 BXor (EV 3) (EV 4));
    Set_ 3 (E1 (URotr 51) (EV 36));
    Set_ 4 (E2 BSub (EV 4) (EV 3));
    Set_ 36 (E2 BXor (EV 5) (EV 2));
    Set_ 5 (E1 (URotr 4) (EV 36));
    Set_ 2 (E2 BSub (EV 2) (EV 5));
    Set_ 36 (E2 BXor (EV 7) (EV 0));
    Set_ 7 (E1 (URotr 33) (EV 36));
    Set_ 0 (E2 BSub (EV 0) (EV 7));
    Set_ 36 (E2 BXor (EV 1) (EV 8));
    Set_ 1 (E1 (URotr 52) (EV 36));
    Set_ 8 (E2 BSub (EV 8) (EV 1));
    Set_ 36 (E2 BXor (EV 5) (EV 14));
    Set_ 5 (E1 (URotr 23) (EV 36));
    Set_ 14 (E2 BSub (EV 14) (EV 5));
    Set_ 36 (E2 BXor (EV 3) (EV 12));
    Set_ 3 (E1 (URotr 18) (EV 36));
    Set_ 12 (E2 BSub (EV 12) (EV 3));
    Set_ 36 (E2 BXor (EV 7) (EV 10));
    Set_ 7 (E1 (URotr 49) (EV 36));
    Set_ 10 (E2 BSub (EV 10) (EV 7));
    Set_ 36 (E2 BXor (EV 15) (EV 4));
    Set_ 15 (E1 (URotr 55) (EV 36));
    Set_ 4 (E2 BSub (EV 4) (EV 15));
    Set_ 36 (E2 BXor (EV 11) (EV 6));
    Set_ 11 (E1 (URotr 10) (EV 36));
    Set_ 6 (E2 BSub (EV 6) (EV 11));
    Set_ 36 (E2 BXor (EV 13) (EV 2));
    Set_ 13 (E1 (URotr 19) (EV 36));
    Set_ 2 (E2 BSub (EV 2) (EV 13));
    Set_ 36 (E2 BXor (EV 9) (EV 0));
    Set_ 9 (E1 (URotr 38) (EV 36));
    Set_ 0 (E2 BSub (EV 0) (EV 9));
    Set_ 36 (E2 BXor (EV 15) (EV 14));
    Set_ 15 (E1 (URotr 37) (EV 36));
    Set_ 14 (E2 BSub (EV 14) (E2 BAdd (E2 BAdd (EV 15) (EV 32)) (EV 33)));
    Set_ 15 (E2 BSub (EV 15) (E2 BAdd (EV 16) (EC 2)));
    Set_ 36 (E2 BXor (EV 13) (EV 12));
    Set_ 13 (E1 (URotr 22) (EV 36));
    Set_ 12 (E2 BSub (EV 12) (E2 BAdd (EV 13) (EV 30)));
    Set_ 13 (E2 BSub (EV 13) (E2 BAdd (EV 31) (EV 35)));
    Set_ 36 (E2 BXor (EV 11) (EV 10));
    Set_ 11 (E1 (URotr 17) (EV 36));
    Set_ 10 (E2 BSub (EV 10) (E2 BAdd (EV 11) (EV 28)));
    Set_ 11 (E2 BSub (EV 11) (EV 29));
    Set_ 36 (E2 BXor (EV 9) (EV 8));
    Set_ 9 (E1 (URotr 8) (EV 36));
    Set_ 8 (E2 BSub (EV 8) (E2 BAdd (EV 9) (EV 26)));
    Set_ 9 (E2 BSub (EV 9) (EV 27));
    Set_ 36 (E2 BXor (EV 7) (EV 6));
    Set_ 7 (E1 (URotr 47) (EV 36));
    Set_ 6 (E2 BSub (EV 6) (E2 BAdd (EV 7) (EV 24)));
    Set_ 7 (E2 BSub (EV 7) (EV 25));
    Set_ 36 (E2 BXor (EV 5) (EV 4));
    Set_ 5 (E1 (URotr 8) (EV 36));
    Set_ 4 (E2 BSub (EV 4) (E2 BAdd (EV 5) (EV 22)));
    Set_ 5 (E2 BSub (EV 5) (EV 23));
    Set_ 36 (E2 BXor (EV 3) (EV 2));
    Set_ 3 (E1 (URotr 13) (EV 36));
    Set_ 2 (E2 BSub (EV 2) (E2 BAdd (EV 3) (EV 20)));
    Set_ 3 (E2 BSub (EV 3) (EV 21));
    Set_ 36 (E2 BXor (EV 1) (EV 0));
    Set_ 1 (E1 (URotr 24) (EV 36));
    Set_ 0 (E2 BSub (EV 0) (E2 BAdd (EV 1) (EV 18)));
    Set_ 1 (E2 BSub (EV 1) (EV 19))];
   [Set_ 36 (E2 BXor (EV 7) (EV 12));
    Set_ 7 (E1 (URotr 20) (EV 36));
    Set_ 12 (E2 BSub (EV 12) (EV 7));
    Set_ 36 (E2 BXor (EV 3) (EV 10));
    Set_ 3 (E1 (URotr 37) (EV 36));
    Set_ 10 (E2 BSub (EV 10) (EV 3));
    Set_ 36 (E2 BXor (EV 5) (EV 8));
    Set_ 5 (E1 (URotr 31) (EV 36));
    Set_ 8 (E2 BSub (EV 8) (EV 5));
    Set_ 36 (E2 BXor (EV 1) (EV 14));
    Set_ 1 (E1 (URotr 23) (EV 36));
    Set_ 14 (E2 BSub (EV 14) (EV 1));
    Set_ 36 (E2 BXor (EV 9) (EV 4));
    Set_ 9 (E1 (URotr 52) (EV 36));
    Set_ 4 (E2 BSub (EV 4) (EV 9));
    Set_ 36 (E2 BXor (EV 13) (EV 6));
    Set_ 13 (E1 (URotr 35) (EV 36));
    Set_ 6 (E2 BSub (EV 6) (EV 13));
    Set_ 36 (E2 BXor (EV 11) (EV 2));
    Set_ 11 (E1 (URotr 48) (EV 36));
    Set_ 2 (E2 BSub (EV 2) (EV 11));
    Set_ 36 (E2 BXor (EV 15) (EV 0));
    Set_ 15 (E1 (URotr 9) (EV 36));
    Set_ 0 (E2 BSub (EV 0) (EV 15));
    Set_ 36 (E2 BXor (EV 9) (EV 10));
    Set_ 9 (E1 (URotr 25) (EV 36));
    Set_ 10 (E2 BSub (EV 10) (EV 9));
    Set_ 36 (E2 BXor (EV 11) (EV 8));
    Set_ 11 (E1 (URotr 44) (EV 36));
    Set_ 8 (E2 BSub (EV 8) (EV 11));
    Set_ 36 (E2 BXor (EV 13) (EV 14));
    Set_ 13 (E1 (URotr 42) (EV 36));
    Set_ 14 (E2 BSub (EV 14) (EV 13));
    Set_ 36 (E2 BXor (EV 15) (EV 12));
    Set_ 15 (E1 (URotr 19) (EV 36));
    Set_ 12 (E2 BSub (EV 12) (EV 15));
    Set_ 36 (E2 BXor (EV 1) (EV 6));
    Set_ 1 (E1 (URotr 46) (EV 36));
    Set_ 6 (E2 BSub (EV 6) (EV 1));
    Set_ 36 (E2 BXor (EV 3) (EV 4));
    Set_ 3 (E1 (URotr 47) (EV 36));
    Set_ 4 (E2 BSub (EV 4) (EV 3));
    Set_ 36 (E2 BXor (EV 5) (EV 2));
    Set_ 5 (E1 (URotr 44) (EV 36));
    Set_ 2 (E2 BSub (EV 2) (EV 5));
    Set_ 36 (E2 BXor (EV 7) (EV 0));
    Set_ 7 (E1 (URotr 31) (EV 36));
    Set_ 0 (E2 BSub (EV 0) (EV 7));
    Set_ 36 (E2 BXor (EV 1) (EV 8));
    Set_ 1 (E1 (URotr 41) (EV 36));
    Set_ 8 (E2 BSub (EV 8) (EV 1));
    Set_ 36 (E2 BXor (EV 5) (EV 14));
    Set_ 5 (E1 (URotr 42) (EV 36));
    Set_ 14 (E2 BSub (EV 14) (EV 5));
    Set_ 36 (E2 BXor (EV 3) (EV 12));
    Set_ 3 (E1 (URotr 53) (EV 36));
    Set_ 12 (E2 BSub (EV 12) (EV 3));
    Set_ 36 (E2 BXor (EV 7) (EV 10));
    Set_ 7 (E1 (URotr 4) (EV 36));
    Set_ 10 (E2 BSub (EV 10) (EV 7));
    Set_ 36 (E2 BXor (EV 15) (EV 4));
    Set_ 15 (E1 (URotr 51) (EV 36));
    Set_ 4 (E2 BSub (EV 4) (EV 15));
    Set_ 36 (E2 BXor (EV 11) (EV 6));
    Set_ 11 (E1 (URotr 56) (EV 36));
    Set_ 6 (E2 BSub (EV 6) (EV 11));
    Set_ 36 (E2 BXor (EV 13) (EV 2));
    Set_ 13 (E1 (URotr 34) (EV 36));
    Set_ 2 (E2 BSub (EV 2) (EV 13));
    Set_ 36 (E2 BXor (EV 9) (EV 0));
    Set_ 9 (E1 (URotr 16) (EV 36));
    Set_ 0 (E2 BSub (EV 0) (EV 9));
    Set_ 36 (E2 BXor (EV 15) (EV 14));
    Set_ 15 (E1 (URotr 30) (EV 36));
    Set_ 14 (E2 BSub (EV 14) (E2 BAdd (E2 BAdd (EV 15) (EV 31)) (EV 35)));
    Set_ 15 (E2 BSub (EV 15) (E2 BAdd (EV 32) (EC 1)));
    Set_ 36 (E2 BXor (EV 13) (EV 12));
    Set_ 13 (E1 (URotr 44) (EV 36));
    Set_ 12 (E2 BSub (EV 12) (E2 BAdd (EV 13) (EV 29)));
    Set_ 13 (E2 BSub (EV 13) (E2 BAdd (EV 30) (EV 34)));
    Set_ 36 (E2 BXor (EV 11) (EV 10));
    Set_ 11 (E1 (URotr 47) (EV 36));
    Set_ 10 (E2 BSub (EV 10) (E2 BAdd (EV 11) (EV 27)));
    Set_ 11 (E2 BSub (EV 11) (EV 28));
    Set_ 36 (E2 BXor (EV 9) (EV 8));
    Set_ 9 (E1 (URotr 12) (EV 36));
    Set_ 8 (E2 BSub (EV 8) (E2 BAdd (EV 9) (EV 25)));
    Set_ 9 (E2 BSub (EV 9) (EV 26));
    Set_ 36 (E2 BXor (EV 7) (EV 6));
    Set_ 7 (E1 (URotr 31) (EV 36));
    Set_ 6 (E2 BSub (EV 6) (E2 BAdd (EV 7) (EV 23)));
    Set_ 7 (E2 BSub (EV 7) (EV 24));
    Set_ 36 (E2 BXor (EV 5) (EV 4));
    Set_ 5 (E1 (URotr 37) (EV 36));
    Set_ 4 (E2 BSub (EV 4) (E2 BAdd (EV 5) (EV 21)));
    Set_ 5 (E2 BSub (EV 5) (EV 22));
    Set_ 36 (E2 BXor (EV 3) (EV 2));
    Set_ 3 (E1 (URotr 9) (EV 36));
    Set_ 2 (E2 BSub (EV 2) (E2 BAdd (EV 3) (EV 19)));
    Set_ 3 (E2 BSub (EV 3) (EV 20));
    Set_ 36 (E2 BXor (EV 1) (EV 0));
    Set_ 1 (E1 (URotr 41) (EV 36));
    Set_ 0 (E2 BSub (EV 0) (E2 BAdd (EV 1) (EV 17)));
    Set_ 1 (E2 BSub (EV 1) (EV 18))];
   [Set_ 36 (E2 BXor (EV 7) (EV 12));
    Set_ 7 (E1 (URotr 25) (EV 36));
    Set_ 12 (E2 BSub (EV 12) (EV 7));
    Set_ 36 (E2 BXor (EV 3) (EV 10));
    Set_ 3 (E1 (URotr 16) (EV 36));
    Set_ 10 (E2 BSub (EV 10) (EV 3));
    Set_ 36 (E2 BXor (EV 5) (EV 8));
    Set_ 5 (E1 (URotr 28) (EV 36));
    Set_ 8 (E2 BSub (EV 8) (EV 5));
    Set_ 36 (E2 BXor (EV 1) (EV 14));
    Set_ 1 (E1 (URotr 47) (EV 36));
    Set_ 14 (E2 BSub (EV 14) (EV 1));
    Set_ 36 (E2 BXor (EV 9) (EV 4));
    Set_ 9 (E1 (URotr 41) (EV 36));
    Set_ 4 (E2 BSub (EV 4) (EV 9));
    Set_ 36 (E2 BXor (EV 13) (EV 6));
    Set_ 13 (E1 (URotr 48) (EV 36));
    Set_ 6 (E2 BSub (EV 6) (EV 13));
    Set_ 36 (E2 BXor (EV 11) (EV 2));
    Set_ 11 (E1 (URotr 20) (EV 36));
    Set_ 2 (E2 BSub (EV 2) (EV 11));
    Set_ 36 (E2 BXor (EV 15) (EV 0));
    Set_ 15 (E1 (URotr 5) (EV 36));
    Set_ 0 (E2 BSub (EV 0) (EV 15));
    Set_ 36 (E2 BXor (EV 9) (EV 10));
    Set_ 9 (E1 (URotr 17) (EV 36));
    Set_ 10 (E2 BSub (EV 10) (EV 9));
    Set_ 36 (E2 BXor (EV 11) (EV 8));
    Set_ 11 (E1 (URotr 59) (EV 36));
    Set_ 8 (E2 BSub (EV 8) (EV 11));
    Set_ 36 (E2 BXor (EV 13) (EV 14));
    Set_ 13 (E1 (URotr 41) (EV 36));
    Set_ 14 (E2 BSub (EV 14) (EV 13));
    Set_ 36 (E2 BXor (EV 15) (EV 12));
    Set_ 15 (E1 (URotr 34) (EV 36));
    Set_ 12 (E2 BSub (EV 12) (EV 15));
    Set_ 36 (E2 BXor (EV 1) (EV 6));
    Set_ 1 (E1 (URotr 13) (EV 36));
    Set_ 6 (E2 BSub (EV 6) (EV 1));
    Set_ 36 (E2 BXor (EV 3) (EV 4));
    Set_ 3 (E1 (URotr 51) (EV 36));
    Set_ 4 (E2 BSub (EV 4) (EV 3));
    Set_ 36 (E2 BXor (EV 5) (EV 2));
    Set_ 5 (E1 (URotr 4) (EV 36));
    Set_ 2 (E2 BSub (EV 2) (EV 5));
    Set_ 36 (E2 BXor (EV 7) (EV 0));
    Set_ 7 (E1 (URotr 33) (EV 36));
    Set_ 0 (E2 BSub (EV 0) (EV 7));
    Set_ 36 (E2 BXor (EV 1) (EV 8));
    Set_ 1 (E1 (URotr 52) (EV 36));
    Set_ 8 (E2 BSub (EV 8) (EV 1));
    Set_ 36 (E2 BXor (EV 5) (EV 14));
    Set_ 5 (E1 (URotr 23) (EV 36));
    Set_ 14 (E2 BSub (EV 14) (EV 5));
    Set_ 36 (E2 BXor (EV 3) (EV 12));
    Set_ 3 (E1 (URotr 18) (EV 36));
    Set_ 12 (E2 BSub (EV 12) (EV 3));
    Set_ 36 (E2 BXor (EV 7) (EV 10));
    Set_ 7 (E1 (URotr 49) (EV 36));
    Set_ 10 (E2 BSub (EV 10) (EV 7));
    Set_ 36 (E2 BXor (EV 15) (EV 4));
    Set_ 15 (E1 (URotr 55) (EV 36));
    Set_ 4 (E2 BSub (EV 4) (EV 15));
    Set_ 36 (E2 BXor (EV 11) (EV 6));
    Set_ 11 (E1 (URotr 10) (EV 36));
    Set_ 6 (E2 BSub (EV 6) (EV 11));
    Set_ 36 (E2 BXor (EV 13) (EV 2));
    Set_ 13 (E1 (URotr 19) (EV 36));
    Set_ 2 (E2 BSub (EV 2) (EV 13));
    Set_ 36 (E2 BXor (EV 9) (EV 0));
    Set_ 9 (E1 (URotr 38) (EV 36));
    Set_ 0 (E2 BSub (EV 0) (EV 9));
    Set_ 36 (E2 BXor (EV 15) (EV 14));
    Set_ 15 (E1 (URotr 37) (EV 36));
    Set_ 14 (E2 BSub (EV 14) (E2 BAdd (E2 BAdd (EV 15) (EV 30)) (EV 34)));
    Set_ 15 (E2 BSub (EV 15) (EV 31));
    Set_ 36 (E2 BXor (EV 13) (EV 12));
    Set_ 13 (E1 (URotr 22) (EV 36));
    Set_ 12 (E2 BSub (EV 12) (E2 BAdd (EV 13) (EV 28)));
    Set_ 13 (E2 BSub (EV 13) (E2 BAdd (EV 29) (EV 33)));
    Set_ 36 (E2 BXor (EV 11) (EV 10));
    Set_ 11 (E1 (URotr 17) (EV 36));
    Set_ 10 (E2 BSub (EV 10) (E2 BAdd (EV 11) (EV 26)));
    Set_ 11 (E2 BSub (EV 11) (EV 27));
    Set_ 36 (E2 BXor (EV 9) (EV 8));
    Set_ 9 (E1 (URotr 8) (EV 36));
    Set_ 8 (E2 BSub (EV 8) (E2 BAdd (EV 9) (EV 24)));
    Set_ 9 (E2 BSub (EV 9) (EV 25));
    Set_ 36 (E2 BXor (EV 7) (EV 6));
    Set_ 7 (E1 (URotr 47) (EV 36));
    Set_ 6 (E2 BSub (EV 6) (E2 BAdd (EV 7) (EV 22)));
    Set_ 7 (E2 BSub (EV 7) (EV 23));
    Set_ 36 (E2 BXor (EV 5) (EV 4));
    Set_ 5 (E1 (URotr 8) (EV 36));
    Set_ 4 (E2 BSub (EV 4) (E2 BAdd (EV 5) (EV 20)));
    Set_ 5 (E2 BSub (EV 5) (EV 21));
    Set_ 36 (E2 BXor (EV 3) (EV 2));
    Set_ 3 (E1 (URotr 13) (EV 36));
    Set_ 2 (E2 BSub (EV 2) (E2 BAdd (EV 3) (EV 18)));
    Set_ 3 (E2 BSub (EV 3) (EV 19));
    Set_ 36 (E2 BXor (EV 1) (EV 0));
    Set_ 1 (E1 (URotr 24) (EV 36));
    Set_ 0 (E2 BSub (EV 0) (E2 BAdd (EV 1) (EV 16)));
    Set_ 1 (E2 BSub (EV 1) (EV 17))]].
(** output[i] = ..., in increasing order of i, threefish1024.go:3725-3740. *)
Definition dec1024_out : list exp :=
  [(EV 0);
   (EV 1);
   (EV 2);
   (EV 3);
   (EV 4);
   (EV 5);
   (EV 6);
   (EV 7);
   (EV 8);
   (EV 9);
   (EV 10);
   (EV 11);
   (EV 12);
   (EV 13);
   (EV 14);
   (EV 15)].

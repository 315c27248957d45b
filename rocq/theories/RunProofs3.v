(** Proofs about RunModel: the counting names. *)
From Coq Require Import NArith ZArith List Arith String Bool Lia.
From Verif Require Import Words WordLemmas ListLemmas Mem KeccakModel HashfModel HashfSpec HashfProofs HashfProps HtModel SmhModel SmhSpec SmhProofs
  SmhBits SmhKeys SmhKeys2 SmhFlip SmhProps SmhProps2 RunModel RunProofs RunProofs2.
Import ListNotations.
Open Scope N_scope.
Open Scope list_scope.

Definition count_of (name : string) (w : world) : N := if (name =? "nullhash")%string then nh w else nhf64 w.
Lemma tick e grow name k s w : counter name = true ->
  exists w1, Hashf e grow w name k s = Ok (w1, (count_of name w + 1) mod 2 ^ 64) /\ count_of name w1 = (count_of name w + 1) mod 2 ^ 64.
Proof.
  intros Hc. unfold counter in Hc. apply orb_true_iff in Hc. destruct Hc as [Hc|Hc]; apply String.eqb_eq in Hc; subst name.
  - unfold Hashf. cbn -[N.pow N.modulo mem read]. unfold SmallModel.null_Reset, SmallModel.null_Write, SmallModel.null_Sum64, add64, addw. rewrite wrap_mod.
    eexists. split; reflexivity.
  - unfold Hashf. cbn -[N.pow N.modulo mem read]. unfold SmallModel.null_Hash64S, add64, addw. rewrite wrap_mod. eexists. split; reflexivity.
Qed.
Lemma tick_ask {A} e grow name b o n s (f : N -> prog A) w : counter name = true ->
  exists w1, through e grow name (Ask b o n s f) w = through e grow name (f ((count_of name w + 1) mod 2 ^ 64)) w1 /\
    count_of name w1 = (count_of name w + 1) mod 2 ^ 64.
Proof.
  intros Hc. cbn [through]. destruct (tick e grow name (mkSlice (length (mem w)) o n (length b - o)) s (withMem w (mem w ++ [b])) Hc) as (w1 & E & C).
  rewrite E. cbn [rbind fst snd]. exists w1. split; [reflexivity|exact C].
Qed.
Definition yields {A} (e : ext) (grow : nat -> nat -> nat) (name : string) (p : prog A) (a : A) : Prop :=
  forall w, exists w', through e grow name p w = Ok (a, w').
Lemma yields_done {A} e grow name (a : A) : yields e grow name (Done a) a.
Proof. intros w. exists w. reflexivity. Qed.
Lemma yields_bind {A B} e grow name (p : prog A) (f : A -> prog B) a b : yields e grow name p a -> yields e grow name (f a) b -> yields e grow name (bind p f) b.
Proof. intros P F w. rewrite through_bind. destruct (P w) as (w1 & ->). cbn [rbind fst snd]. apply F. Qed.
Lemma yields_each {A B} e grow name (f : A -> prog B) (g : A -> B) l : (forall a, In a l -> yields e grow name (f a) (g a)) -> yields e grow name (each_of f l) (map g l).
Proof.
  induction l as [|a l IH]; intros H; cbn [each_of map]; [apply yields_done|].
  eapply yields_bind; [apply H; now left|]. eapply yields_bind; [apply IH; intros; apply H; now right|]. apply yields_done.
Qed.
Lemma each_counts {A} e grow name (g : A -> list N) (f : A -> N) ks : counter name = true -> forall w,
  exists w', through e grow name (each_of (fun k => ask (g k) (f k)) ks) w = Ok (map (fun i => (count_of name w + 1 + N.of_nat i) mod 2 ^ 64) (seq 0 (length ks)), w').
Proof.
  intros Hc. induction ks as [|k ks IH]; intros w; [exists w; reflexivity|]. cbn [each_of]. rewrite through_bind.
  destruct (tick_ask e grow name (g k) 0 (length (g k)) (f k) (fun h => Done h) w Hc) as (w1 & E & C).
  unfold ask at 1. rewrite E. cbn [through rbind fst snd]. rewrite through_bind. destruct (IH w1) as (w' & ->). cbn [rbind through fst snd length seq map].
  exists w'. do 3 f_equal; [now rewrite N.add_0_r|]. rewrite <- seq_shift, map_map. apply map_ext. intros i. rewrite C.
  rewrite <- N.add_assoc, N.add_mod_idemp_l by discriminate. f_equal. lia.
Qed.
Lemma counts_nodup c n : N.of_nat n <= 2 ^ 64 -> NoDup (map (fun i => (c + N.of_nat i) mod 2 ^ 64) (seq 0 n)).
Proof.
  intros H. assert (G : forall l, NoDup l -> (forall x, In x l -> (x < n)%nat) -> NoDup (map (fun i => (c + N.of_nat i) mod 2 ^ 64) l)).
  { induction l as [|x l IH]; intros ND L; cbn [map]; [constructor|]. inversion ND as [|? ? Nx Nl]; subst. constructor; [|apply IH; auto; intros; apply L; now right].
    intros I. apply in_map_iff in I. destruct I as (y & E & Iy). apply Nx. replace x with y; [exact Iy|].
    pose proof (L x (or_introl eq_refl)) as Lx. pose proof (L y (or_intror Iy)) as Ly.
    assert (P : 2 ^ 64 <> 0) by discriminate.
    pose proof (N.div_mod (c + N.of_nat y) (2 ^ 64) P) as D1. pose proof (N.div_mod (c + N.of_nat x) (2 ^ 64) P) as D2. rewrite E in D1.
    set (q1 := (c + N.of_nat y) / 2 ^ 64) in *. set (q2 := (c + N.of_nat x) / 2 ^ 64) in *. set (r := (c + N.of_nat x) mod 2 ^ 64) in *.
    clearbody q1 q2 r. change (2 ^ 64) with 18446744073709551616 in *.
    assert (q1 = q2) by lia. subst q2. lia. }
  apply G; [apply seq_NoDup|]. intros x Hx. apply in_seq in Hx. lia.
Qed.
Lemma check_nodup hs : NoDup hs -> check (set_of hs) = false.
Proof.
  intros ND. destruct (set_of_spec hs) as (E & L). apply distinct_eq in ND. unfold check. rewrite E, L, ND, Z.sub_diag. cbv zeta.
  set (n := Z.of_nat (length hs)). assert (0 <= n)%Z by (unfold n; lia). clearbody n.
  assert (P : (0 <= n * (n - 1) / 2)%Z) by (apply Z.div_pos; nia).
  replace (0 <? 0 * 2 ^ 64 - n * (n - 1) / 2)%Z with false; [reflexivity|]. symmetry. apply Z.ltb_ge. lia.
Qed.
Section Counting.
Variables (e : ext) (grow : nat -> nat -> nat) (name : string) (Hc : counter name = true).
Lemma quiet_verdict ks : N.of_nat (length ks) < 2 ^ 64 -> yields e grow name (askVerdict ks) false.
Proof.
  intros L w. unfold askVerdict. rewrite through_bind. destruct (each_counts e grow name (fun k => k) (fun _ => 0) ks Hc w) as (w' & ->).
  cbn [rbind fst snd through]. exists w'. do 2 f_equal. apply check_nodup, counts_nodup. lia.
Qed.
Lemma quiet_seed : yields e grow name askSeed false.
Proof.
  intros w. unfold askSeed. rewrite through_bind. destruct (each_counts e grow name (fun _ : nat => str "hello") N.of_nat (seq 0 (N.to_nat 100000)) Hc w) as (w' & ->).
  cbn [rbind fst snd through]. exists w'. do 2 f_equal. apply check_nodup, counts_nodup. rewrite seq_length, N2Nat.id. discriminate.
Qed.
Lemma quiet_each {A} (f : A -> prog bool) l : (forall a, In a l -> yields e grow name (f a) false) ->
  exists bs, yields e grow name (each_of f l) bs /\ complaints bs = 0%nat.
Proof.
  intros H. exists (map (fun _ => false) l). split; [now apply yields_each|]. clear H. unfold complaints. induction l as [|a l IH]; [reflexivity|exact IH].
Qed.
Lemma quiet_windows k : key_ok k -> (16 <= bits k <= 1600)%nat ->
  exists bs, yields e grow name (each_of (fun r => match window_keys r (N.to_nat 65536) k with
                    | Some ks => askVerdict (map key_sent ks) | None => Done false end) (seq 0 (bits k))) bs /\ complaints bs = 0%nat.
Proof.
  intros O L. apply quiet_each. intros r Hr. apply in_seq in Hr.
  destruct (families_window k r _ O L ltac:(lia) (proj1 count16) (proj2 count16)) as (ks & -> & F). apply quiet_verdict, F.
Qed.
Lemma complaints_app a b : complaints (a ++ b) = (complaints a + complaints b)%nat.
Proof. unfold complaints. now rewrite filter_app, app_length. Qed.
Lemma loud_round b c o n o' n' : yields e grow name (Ask b o n 0 (fun x => Ask c o' n' 0 (fun y => Done (negb (x =? y))))) true.
Proof.
  intros w. destruct (tick_ask e grow name b o n 0 (fun x => Ask c o' n' 0 (fun y => Done (negb (x =? y)))) w Hc) as (w1 & -> & C1).
  destruct (tick_ask e grow name c o' n' 0 (fun y => Done (negb ((count_of name w + 1) mod 2 ^ 64 =? y))) w1 Hc) as (w2 & -> & C2).
  exists w2. cbn [through]. rewrite C1. set (x := (count_of name w + 1) mod 2 ^ 64).
  assert (Lx : x < 2 ^ 64) by (apply N.mod_lt; discriminate). clearbody x.
  destruct (N.eqb_spec x ((x + 1) mod 2 ^ 64)) as [E|_]; [exfalso|reflexivity].
  destruct (N.eq_dec x (2 ^ 64 - 1)) as [->|Nx]; [discriminate E|].
  rewrite N.mod_small in E by lia. lia.
Qed.
Lemma complaints_all {A} (l : list A) : complaints (map (fun _ => true) l) = length l.
Proof. unfold complaints. induction l as [|a l IH]; [reflexivity|]. cbn [map filter length]. now rewrite IH. Qed.
Lemma rounds_length : N.of_nat (length sanity_rounds) = 20480.
Proof. vm_compute. reflexivity. Qed.
Lemma loud_sanity rb rc : exists b, yields e grow name (askSanity rb rc) (b, length sanity_rounds).
Proof.
  exists (existsb (fun b => b) (map (fun _ => true) sanity_rounds)). unfold askSanity. eapply yields_bind; [apply (yields_each _ _ _ _ (fun _ => true))|].
  - intros ((k & n) & i) _. apply loud_round.
  - rewrite complaints_all. apply yields_done.
Qed.
Lemma quiet_test rr t : randoms_ok rr -> t <> SSanity -> exists b, yields e grow name (ask_stest rr t) (b, 0%nat).
Proof.
  intros (_ & Rc & _) Ht.
  assert (Once : forall p, yields e grow name p false -> exists b, yields e grow name (bind p (fun b => Done (once b))) (b, 0%nat)).
  { intros p Y. exists false. eapply yields_bind; [exact Y|apply yields_done]. }
  destruct t; cbv beta iota zeta delta [ask_stest]; [contradiction| | | | | | | | | | |].
  - apply Once, quiet_seed.
  - exists false. unfold askText. repeat (eapply yields_bind; [apply quiet_verdict, family_text; [apply str_bytes || constructor|apply str_bytes || constructor|cbn; lia]|]). apply yields_done.
  - exists false. unfold askWindowed. cbv zeta.
    destruct (quiet_windows (Int32Key 0)) as (b1 & Y1 & C1); [reflexivity|cbn [bits]; lia|].
    destruct (quiet_windows (Int64Key 0)) as (b2 & Y2 & C2); [reflexivity|cbn [bits]; lia|].
    destruct (quiet_windows (BytesKey (repeat 0 128))) as (b3 & Y3 & C3); [apply zeros_bytes|cbn [bits]; rewrite repeat_length; lia|].
    eapply yields_bind; [exact Y1|]. eapply yields_bind; [exact Y2|]. eapply yields_bind; [exact Y3|].
    assert (C : complaints (b1 ++ b2 ++ b3) = 0%nat) by (rewrite !complaints_app; lia). rewrite C. apply yields_done.
  - exists false. unfold askAvalanche. intros w. rewrite through_bind.
    destruct (through_counts e grow name (each_of (each_of (fun k => bind (ask (key_sent k) 0) (fun _ => askFlips (seq 0 (bits k)) k))) (rr_keys rr)) Hc w) as (a & w' & ->).
    cbn [rbind]. apply yields_done.
  - exists false. unfold askPermutation. destruct (quiet_each (fun '(n, s) => askVerdict (permutation_keys s n)) Permutations) as (bs & Y & C).
    { intros (n & s) H. apply quiet_verdict, family_permutation, H. }
    eapply yields_bind; [exact Y|]. rewrite C. apply yields_done.
  - unfold askSparse. destruct (quiet_each (fun '(n, k) => askVerdict (sparse_keys n k)) sparse_pairs) as (bs & Y & C).
    { intros (n & k) H. apply quiet_verdict, family_sparse, H. }
    eexists. eapply yields_bind; [exact Y|]. rewrite C. apply yields_done.
  - unfold askCyclic. destruct (quiet_each (fun n => askVerdict (cyclic_keys n (r_cyclic (rr_of rr) n) (N.to_nat 1000000))) (seq 4 9)) as (bs & Y & C).
    { intros n H. apply in_seq in H. apply quiet_verdict, family_cyclic; [lia|apply Rc]. }
    eexists. eapply yields_bind; [exact Y|]. rewrite C. apply yields_done.
  - apply Once, quiet_verdict, family_two.
  - apply Once, quiet_verdict, family_small.
  - apply Once, quiet_verdict, family_zeros. rewrite N2Nat.id. reflexivity.
  - apply Once, quiet_verdict, family_appended.
Qed.
Lemma counting_report rr v : randoms_ok rr -> yields e grow name (askSMhasher rr v)
  (map (fun '(t, desc) => (if v then Some desc else None, match t with SSanity => length sanity_rounds | _ => 0%nat end)) STests).
Proof.
  intros R. unfold askSMhasher. apply yields_each. intros (t & desc) _.
  assert (Y : exists b, yields e grow name (ask_stest rr t) (b, match t with SSanity => length sanity_rounds | _ => 0%nat end)).
  { destruct t; try (apply (quiet_test rr _ R); discriminate). apply loud_sanity. }
  destruct Y as (b & Y). eapply yields_bind; [exact Y|]. apply yields_done.
Qed.
End Counting.

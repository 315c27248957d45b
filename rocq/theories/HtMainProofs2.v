(** A test with a hash function that is a function of the key: what it prints and how it ends. *)
From Coq Require Import NArith ZArith List Arith Lia String Bool.
From Verif Require Import Words WordLemmas Mem ListLemmas KeccakModel KeccakProofs3 KeccakProofs4 KeccakProofs5 HashfModel HashfSpec HashfProofs HashfProps
  HashTableModel HashTableProofs LiveModel LiveSpec LiveProofs LiveProofs2 LiveProofs3 LiveProofs5 LiveProps HtModel HtSpec HtProofs HtKeys HtRuns
  TestMemModel TestMemProofs RunSpec RunProofs4 RunProofs5 HtMainModel HtMainSpec HtMainProofs.
Import ListNotations.
Open Scope N_scope.
Notation length := List.length.

Lemma andthen_ok {A B} (a : list shown) (x : A) (f : A -> out B) : andthen (a, Ok x) f = (a ++ fst (f x), snd (f x)).
Proof. cbn [andthen]. now destruct (f x). Qed.
Lemma andthen_panics {A B} (a : list shown) (f : A -> out B) : andthen (a, Panics) f = (a, Panics).
Proof. reflexivity. Qed.
Lemma until_app l1 l2 : until (l1 ++ l2) = let '(a, ok) := until l1 in if ok then let '(b, ok) := until l2 in (a ++ b, ok) else (a, false).
Proof.
  induction l1 as [|[a [|]] l1 IH]; cbn [app until]; [now destruct (until l2)| |reflexivity].
  rewrite IH. destruct (until l1) as [b [|]]; [|reflexivity]. destruct (until l2) as [c k]. now rewrite app_assoc.
Qed.

Section Test.
  Variable e : ext.
  Variable grow : nat -> nat -> nat.
  Variable np : N -> N.
  Variable f : flags.
  Variable o : opts.
  Variable fs : string -> option (list N).
  Hypothesis Ee : ext_ok e.
  Hypothesis Hd : forall i, f_draw f i < 2 ^ 64.
  Hypothesis Hf : forall file s, fs file = Some s -> small_file s.
  Variable name : string.
  Hypothesis Hc : counter name = false.
  Local Notation hf := (named e name (seed64 f)).
  Local Notation text := (text fs).
  Local Notation lines_of := (lines_of fs).
  Local Notation whole := (whole fs).
  Local Notation lines_for := (lines_for o fs).
  Local Notation empty_table := (empty_table np f).

  Lemma text_small file s : text file = Some s -> small_file s.
  Proof. unfold HtMainSpec.text. destruct (String.eqb file ""); [discriminate|apply Hf]. Qed.
  Lemma whole_true file : whole file = true -> snd (ReadFile (text file)) = Ok (length (lines_of file)).
  Proof.
    unfold HtMainSpec.whole, HtMainSpec.lines_of. destruct (ReadFile (text file)) as [ls r] eqn:E. destruct (ReadFile_in _ _ _ E) as [_ [-> | ->]]; [discriminate|reflexivity].
  Qed.
  Lemma whole_false file : whole file = false -> snd (ReadFile (text file)) = Panics.
  Proof.
    unfold HtMainSpec.whole. destruct (ReadFile (text file)) as [ls r] eqn:E. destruct (ReadFile_in _ _ _ E) as [_ [-> | ->]]; [reflexivity|discriminate].
  Qed.

  Lemma fill_view n sz ops ks hs s : world_ok (s_world s) -> keys_of [] ops = ks -> lops_ok [] ops -> Forall steady ops -> told e [] ops = hs ->
    (all_hash e name (seed64 f) [] ops <-> forall k, In k ks -> hashes e name k (seed64 f)) ->
    match insert_all hf (empty_table sz) ks with
    | Ret T => if takes name ks
               then exists s' l, fill e grow np f name n sz ops s = Ok (s', l, hs) /\ table_in (mem (s_world s')) l = T /\ keeps_on f n s s'
               else fill e grow np f name n sz ops s = Panics
    | _ => fill e grow np f name n sz ops s = Panics
    end.
  Proof.
    intros O <- L St <- H. destruct (fill_ok e grow np f name n sz ops s Ee Hc O L St) as [A B]. rewrite <- (takes_iff e name _ (seed64 f) Hc) in H.
    destruct (takes name (keys_of [] ops)) eqn:T.
    - specialize (A (proj2 H eq_refl)). destruct (insert_all hf (empty_table sz) (keys_of [] ops)); auto.
    - rewrite B by (intros X; apply H in X; discriminate). now destruct (insert_all hf (empty_table sz) (keys_of [] ops)).
  Qed.

  (** How a call of a test ends. *)
  Definition went (m : out (sess * live * nat)) (a : list shown) (x : option (table * nat)) (n : Z) (d : nat) : Prop :=
    match x with
    | Some (T, d2) => exists s' l, m = (a, Ok (s', l, d2)) /\ table_in (mem (s_world s')) l = T /\ world_ok (s_world s') /\ s_n s' = n /\ s_draws s' = d
    | None => m = (a, Panics)
    end.
  Definition did (m : out sess) (a : list shown) (ok : bool) (n : Z) (d : nat) : Prop :=
    if ok then exists s', m = (a, Ok s') /\ world_ok (s_world s') /\ s_n s' = n /\ s_draws s' = d else m = (a, Panics).
  Lemma went_say y m a x n d : went m a x n d -> went (_ <<- say y ;; m) (y :: a) x n d.
  Proof. unfold say. rewrite andthen_ok. destruct x as [[T d2]|]; cbn [went]; [intros (s' & l & -> & H); exists s', l; auto|now intros ->]. Qed.
  Lemma print_did t contents lines s a x n d : went (call_test e grow np f name contents lines t s) a x n d ->
    did (call_and_print e grow np f name contents lines t s)
      (FuncHead name :: a ++ match x with Some (T, d2) => ending f T d2 | None => [] end) (match x with Some _ => true | None => false end) n d.
  Proof.
    intros W. unfold call_and_print, say. rewrite andthen_ok. destruct x as [[T d2]|]; cbn [went did] in *.
    - destruct W as (s' & l & E & V & O & N1 & N2). exists s'. split; [|auto]. rewrite E, andthen_ok. unfold ending. rewrite <- V, <- print_view.
      destruct (f_show f); reflexivity.
    - rewrite W, andthen_panics. cbn [fst snd]. now rewrite app_nil_r.
  Qed.

  (** ** Files *)
  Lemma call_file_ok file kf s : world_ok (s_world s) -> In kf [keyA; keyB; keyC; keyD; keyE; keyF; keyG] ->
    went (call_file e grow np f name (text file) (lines_for file) kf s) []
      (match insert_all hf (empty_table (lines_for file)) (map kf (lines_of file)) with
       | Ret T => if takes name (map kf (lines_of file)) && whole file then Some (T, 0%nat) else None
       | _ => None
       end) (s_n s) (s_draws s).
  Proof.
    intros O Hk. unfold call_file, HashTableModel.key in *. pose proof (whole_true file) as Wt. pose proof (whole_false file) as Wf.
    pose proof (lines_fair (text file) (text_small file) kf Hk) as Lf.
    unfold HtMainSpec.lines_of in *. destruct (ReadFile (text file)) as [ls r]. cbn [fst snd] in *.
    destruct (fresh_whole e name (seed64 f) (map kf ls) [] Lf) as (K1 & K2 & K3 & K4). cbn [length] in *. unfold HashTableModel.key in *.
    pose proof (fill_view (s_n s) (lines_for file) (fresh_ops 0 (map kf ls)) (map kf ls) _ s O K1 K2 K3 eq_refl K4) as V.
    destruct (insert_all hf (empty_table (lines_for file)) (map kf ls)) as [T| |]; [|now rewrite V|now rewrite V].
    destruct (takes name (map kf ls)); cbn [andb]; [|now rewrite V].
    destruct V as (s' & l & E & V & (O' & N1 & N2)). rewrite E. cbn [rbind]. unfold finish.
    destruct (whole file); [rewrite (Wt eq_refl)|now rewrite (Wf eq_refl)]. exists s', l. split; [reflexivity|]. auto.
  Qed.

  (** ** Keys of its own *)
  Lemma own_ok n sz ops ks s : world_ok (s_world s) -> keys_of [] ops = ks -> lops_ok [] ops -> Forall steady ops ->
    (all_hash e name (seed64 f) [] ops <-> forall k, In k ks -> hashes e name k (seed64 f)) ->
    went (silent (x <~ fill e grow np f name n sz ops s ;; finish (Ok 0%nat) x)) []
      (match insert_all hf (empty_table sz) ks with Ret T => if takes name ks then Some (T, 0%nat) else None | _ => None end) n (s_draws s).
  Proof.
    intros O K1 K2 K3 K4. pose proof (fill_view n sz ops ks _ s O K1 K2 K3 eq_refl K4) as V.
    destruct (insert_all hf (empty_table sz) ks) as [T| |]; [|now rewrite V|now rewrite V].
    destruct (takes name ks); [|now rewrite V]. destruct V as (s' & l & E & V & (O' & N1 & N2)). rewrite E. exists s', l. split; [reflexivity|]. auto.
  Qed.
  Definition fine (perms : list (list N)) : Prop := perms <> [] /\ Forall (fun p => p <> []) perms /\ Forall (Forall byte) perms /\ (length perms <= 1000)%nat.
  Lemma words_fair perms : fine perms -> Forall fair (fst (genWords perms)).
  Proof.
    clear. intros (H1 & H2 & H3 & H4). rewrite genWords_lemma by assumption. cbn [fst]. apply Forall_forall. intros w Hw. apply in_map_iff in Hw.
    destruct Hw as (i & <- & _). pose proof (combination_choice perms i H2) as C. unfold choice in C.
    assert (X : bytes_ok (flat_map utf8 (combination perms i)) /\ (length (flat_map utf8 (combination perms i)) <= 2 * length perms)%nat).
    { clear -C H3. revert H3. induction C as [|c p cs ps Hc C IH]; intros H3; [split; [constructor|cbn; lia]|]. apply Forall_cons_iff in H3. destruct H3 as [Hp H3].
      destruct (IH H3) as [A B]. cbn [flat_map length]. rewrite app_length. pose proof (utf8_length c). split; [|lia]. apply Forall_app. split; [|exact A].
      apply utf8_ok. rewrite Forall_forall in Hp. now apply Hp. }
    destruct X as [A B]. split; [exact A|]. change (2 ^ 64) with 18446744073709551616. lia.
  Qed.
  Lemma call_words_ok perms s : fine perms -> world_ok (s_world s) ->
    went (call_words e grow np f name perms s) []
      (match insert_all hf (empty_table (Z.of_nat (length (fst (genWords perms))))) (fst (genWords perms)) with
       | Ret T => if takes name (fst (genWords perms)) then Some (T, 0%nat) else None
       | _ => None
       end) (s_n s) (s_draws s).
  Proof.
    intros P O. unfold call_words. pose proof (words_fair perms P) as F. destruct P as (H1 & H2 & _ & _). pose proof (genWords_lemma perms H1 H2) as G.
    apply (f_equal snd) in G. cbn [snd] in G. destruct (genWords perms) as [ws r]. cbn [fst snd] in *. subst r. cbn [rbind].
    destruct (fresh_whole e name (seed64 f) ws [] F) as (K1 & K2 & K3 & K4). cbn [length] in *. now apply own_ok.
  Qed.

  (** ** TestL, TestM *)
  Lemma fold_map' {A B C} (g : C -> B -> C) (h : A -> B) l : forall c, fold_left g (map h l) c = fold_left (fun c x => g c (h x)) l c.
  Proof. induction l as [|x l IH]; intros c; [reflexivity|]. cbn [map fold_left]. apply IH. Qed.
  Lemma call_L_ok m sz s : (m <= 256)%nat -> world_ok (s_world s) ->
    went (silent (x <~ fill e grow np f name (s_n s) sz (testL_ops name (seed64 f) m) s ;; set_dups2 x)) []
      (match insert_all hf (empty_table sz) (triples m) with Ret T => if takes name (triples m) then Some (T, dups2 hf (triples m)) else None | _ => None end)
      (s_n s) (s_draws s).
  Proof.
    intros Hm O. destruct (testL_whole e name (seed64 f) (seed64_lt f) m Hm) as (K1 & K2 & K4).
    pose proof (fill_view (s_n s) sz _ _ _ s O K1 K2 (testL_steady name (seed64 f) m Hc) (testL_told e name (seed64 f) m Hm) K4) as V.
    destruct (insert_all hf (empty_table sz) (triples m)) as [T| |]; [|now rewrite V|now rewrite V].
    destruct (takes name (triples m)); [|now rewrite V]. destruct V as (s' & l & E & V & (O' & N1 & N2)). rewrite E. exists s', l.
    split; [|auto]. cbn [rbind]. unfold silent, set_dups2, dups2. cbn [fst snd]. now rewrite map_length, fold_map'.
  Qed.
  Lemma no_inserts g t : insert_all g t [] = Ret t.
  Proof. reflexivity. Qed.
  Lemma call_mod_ok n s : world_ok (s_world s) ->
    let ni := cf_ni (f_cf f) in
    let good := (0 <? n)%Z && takes name (keysI ni) in
    went (call_mod e grow np f name n s)
      (IntLine (s_n s) ni :: if good then [Expected (Z.quot ni n); Hist (histogram hf (Z.to_nat n) (keysI ni))] else [])
      (if good then Some (empty_table n, 0%nat) else None) n (s_draws s).
  Proof.
    intros O ni good. unfold call_mod, say. fold ni. rewrite andthen_ok. subst good.
    destruct (0 <? n)%Z eqn:E; [replace (n <=? 0)%Z with false by lia|now replace (n <=? 0)%Z with true by lia]. cbn [andb].
    destruct (testM_whole e name (seed64 f) ni (seed64_lt f) Hc) as (K1 & K2 & K3 & K5 & K4).
    destruct (fill_ok e grow np f name n n _ s Ee Hc O K2 K3) as [A B]. rewrite K1, no_inserts, K5 in A. rewrite <- (takes_iff e name _ (seed64 f) Hc) in K4.
    destruct (takes name (keysI ni)).
    - destruct (A (proj2 K4 eq_refl)) as (s' & l & F & V & (O' & N1 & N2)). rewrite F. unfold silent. rewrite andthen_ok. exists s', l. split; [|auto].
      cbn [andthen ret fst snd app]. unfold histogram. now rewrite fold_map'.
    - rewrite B by (intros X; apply K4 in X; discriminate). reflexivity.
  Qed.

  (** ** TestK *)
  Definition zeros : list N := repeat 0 1000.
  Definition buffered (b : slice) (w : world) : Prop :=
    world_ok w /\ wf (mem w) b /\ (arr b < length (mem w))%nat /\ ~ In (arr b) (map arr (fps w)) /\ read (mem w) b = zeros /\ len b = 1000%nat.
  Lemma hash_buf b w seed : buffered b w -> seed < 2 ^ 64 ->
    if takes name [zeros] then exists w', Hashf e grow w name b seed = Ok (w', named e name seed zeros) /\ buffered b w' else Hashf e grow w name b seed = Panics.
  Proof.
    intros (O & W & L & U & R & Ln) Hs. pose proof (takes_iff e name [zeros] seed Hc) as T.
    pose proof (Hashf_right e grow w name b seed Ee O W ltac:(rewrite Ln; reflexivity) Hs Hc) as Rt. unfold right in Rt. rewrite R in Rt.
    pose proof (hashes_good e name seed Hc zeros) as G. unfold named.
    destruct (reference e name zeros seed) as [h|].
    - replace (takes name [zeros]) with true by (symmetry; apply T; intros k [<-|[]]; apply G; discriminate).
      destruct Rt as (w' & E & O' & K). exists w'. split; [exact E|]. apply keeps_same in K. pose proof (same_grows _ _ K) as (G1 & G2 & G3 & G4).
      split; [exact O'|]. assert (A : array (mem w') (arr b) = array (mem w) (arr b)) by auto.
      split; [|split; [lia|split; [now rewrite G2|split; [|exact Ln]]]].
      + destruct W as (W1 & W2 & W3). unfold wf. rewrite A. repeat split; try assumption. lia.
      + unfold read in *. now rewrite A.
    - destruct (takes name [zeros]) eqn:Et; [|exact Rt]. exfalso. apply G; [|reflexivity]. now apply (proj1 T eq_refl), or_introl.
  Qed.
  Lemma hex_ends l : hexToBytes l = Panics \/ exists k, hexToBytes l = Ok k.
  Proof.
    unfold hexToBytes. destruct (Nat.ltb 1000 _); [now left|]. destruct (Nat.odd _); [now left|].
    assert (U : forall c, unhex c = Panics \/ exists k, unhex c = Ok k).
    { intros c. unfold unhex. destruct (_ && _); [right; eauto|]. destruct (_ && _); [right; eauto|]. destruct (_ && _); [right; eauto|now left]. }
    assert (D : forall i, idx l i = Panics \/ exists k, idx l i = Ok k) by (intros i; unfold idx; destruct (nth_error l i); eauto).
    cut (forall n i, hex_loop l i n = Panics \/ exists k, hex_loop l i n = Ok k); [auto|].
    induction n as [|n IH]; intros i; [right; eexists; reflexivity|]. cbn [hex_loop].
    destruct (D (2 * i)%nat) as [-> |[a ->]]; [now left|]. cbn [rbind]. destruct (U a) as [-> |[a' ->]]; [now left|]. cbn [rbind].
    destruct (D (2 * i + 1)%nat) as [-> |[c ->]]; [now left|]. cbn [rbind]. destruct (U c) as [-> |[c' ->]]; [now left|]. cbn [rbind].
    destruct (IH (S i)) as [-> |[r ->]]; [now left|]. right. eexists. reflexivity.
  Qed.
  Definition key_piece (seed : N) (l : list N) : list shown * bool :=
    if takes name [zeros] then match hexToBytes l with Ok k => ([KeyLine seed k (named e name seed zeros)], true) | _ => ([], false) end else ([], false).
  Lemma lines_ok b seed : seed < 2 ^ 64 -> forall ls w, buffered b w ->
    let '(a, ok) := until (map (key_piece seed) ls) in
    if ok then exists w', each (hash_line e grow name b seed) ls w = (a, Ok w') /\ buffered b w' else each (hash_line e grow name b seed) ls w = (a, Panics).
  Proof.
    intros Hs. induction ls as [|l ls IH]; intros w Hw; [exists w; auto|]. cbn [map until each]. pose proof (hash_buf b w seed Hw Hs) as H.
    unfold key_piece at 1. destruct (takes name [zeros]).
    - destruct H as (w' & E & H). destruct (hex_ends l) as [X|[k X]]; rewrite X.
      + unfold hash_line at 1. rewrite E. cbn [andthen silent]. now rewrite X.
      + assert (HL : hash_line e grow name b seed l w = ([KeyLine seed k (named e name seed zeros)], Ok w')).
        { unfold hash_line. rewrite E. cbn [andthen silent]. rewrite X. reflexivity. }
        specialize (IH w' H). destruct (until (map (key_piece seed) ls)) as [a [|]].
        * destruct IH as (w2 & E2 & B2). exists w2. split; [|exact B2]. rewrite HL, andthen_ok, E2. reflexivity.
        * rewrite HL, andthen_ok, IH. reflexivity.
    - unfold hash_line at 1. rewrite H. reflexivity.
  Qed.
  Lemma rounds_ok b file ls r : ReadFile (text file) = (ls, r) -> forall (l : list nat) s, buffered b (s_world s) ->
    let '(a, ok) := until (flat_map (one_seed e fs file name) (map (f_draw f) (seq (s_draws s) (length l)))) in
    if ok then exists s', each (seed_round e grow f name b ls r) l s = (a, Ok s') /\ buffered b (s_world s') /\ s_n s' = s_n s /\ s_draws s' = (s_draws s + length l)%nat
    else each (seed_round e grow f name b ls r) l s = (a, Panics).
  Proof.
    intros Er. pose proof (whole_true file) as Wt. pose proof (whole_false file) as Wf. rewrite Er in *. cbn [snd] in *.
    assert (El : lines_of file = ls) by (unfold HtMainSpec.lines_of; now rewrite Er).
    induction l as [|i l IH]; intros s Hw; [exists s; split; [reflexivity|split; [exact Hw|split; [reflexivity|cbn [length]; lia]]]|]. cbn [length seq map flat_map each]. rewrite until_app.
    unfold one_seed at 1. rewrite El. rewrite until_app.
    change (map _ ls) with (map (key_piece (f_draw f (s_draws s))) ls).
    pose proof (lines_ok b (f_draw f (s_draws s)) (Hd _) ls (s_world s) Hw) as L.
    destruct (until (map (key_piece (f_draw f (s_draws s))) ls)) as [a [|]].
    - destruct L as (w' & E & B). cbn [until].
      assert (SR : seed_round e grow f name b ls r i s = (a, if whole file then Ok (mkSess w' (s_n s) (S (s_draws s))) else Panics)).
      { unfold seed_round, hash_lines. rewrite E, andthen_ok. destruct (whole file); [rewrite (Wt eq_refl)|rewrite (Wf eq_refl)]; cbn; now rewrite !app_nil_r. }
      rewrite SR. destruct (whole file); [|now rewrite !app_nil_r]. rewrite andthen_ok. specialize (IH (mkSess w' (s_n s) (S (s_draws s))) B).
      cbn [s_draws s_n s_world] in IH. rewrite !app_nil_r. destruct (until (flat_map _ _)) as [c [|]].
      + destruct IH as (s' & E' & B' & N1 & N2). exists s'. split; [|split; [exact B'|split; [exact N1|cbn [length]; lia]]]. now rewrite E'.
      + now rewrite IH.
    - unfold seed_round at 1, hash_lines. rewrite L. reflexivity.
  Qed.
  Lemma call_keys_ok file s : world_ok (s_world s) ->
    let '(a, ok) := until (flat_map (one_seed e fs file name) (seeds f (s_draws s))) in
    went (call_keys e grow np f name (text file) (lines_for file) s) (EmptyLine :: a)
      (if ok then Some (empty_table (lines_for file), 0%nat) else None) (s_n s) (s_draws s + Z.to_nat (f_ns f mod 2 ^ 64)).
  Proof.
    intros O. unfold call_keys, seeds, say. set (b := mkSlice _ _ _ _). set (w := withMem _ _). destruct (ReadFile (text file)) as [ls r] eqn:Er.
    assert (B : buffered b w).
    { assert (Bz : bytes_ok (repeat 0 1000)) by (apply Forall_forall; intros x Hx; apply repeat_spec in Hx; subst x; reflexivity).
      assert (A : array (mem w) (arr b) = repeat 0 1000) by apply array_last.
      split; [now apply app_ok|]. split; [|split; [|split; [|split; [|reflexivity]]]].
      - unfold wf. rewrite A, repeat_length. subst b w. cbn [mem withMem arr off len cap]. rewrite app_length. cbn [length]. lia.
      - subst b w. cbn [mem withMem arr]. rewrite app_length. cbn [length]. lia.
      - intros I. change (map arr (fps w)) with (map arr (fps (s_world s))) in I. apply (fps_lt _ _ O) in I. subst b. cbn [arr] in I. lia.
      - unfold read. rewrite A. reflexivity. }
    pose proof (rounds_ok b file ls r Er (seq 0 (Z.to_nat (f_ns f mod 2 ^ 64))) (mkSess w (s_n s) (s_draws s)) B) as R.
    cbn [s_draws s_n] in R. rewrite seq_length in R. destruct (until (flat_map _ _)) as [a [|]]; rewrite andthen_ok.
    - destruct R as (s' & E & B' & N1 & N2). rewrite E, andthen_ok. eexists s', _. split; [cbn [fst snd ret app]; rewrite app_nil_r; reflexivity|].
      split; [apply new_in|]. split; [apply B'|auto].
    - rewrite R. reflexivity.
  Qed.

  (** ** Any test *)
  Lemma fine_letters : fine letters.
  Proof. split; [discriminate|]. split; [repeat constructor; discriminate|]. split; [repeat constructor|]. apply Nat.leb_le. reflexivity. Qed.
  Local Opaque genWords letters march triples insert_all.
  Definition next_n (t : test) (n : Z) : Z := match t with TI | TM => changed f n | _ => n end.
  Definition next_d (t : test) (d : nat) : nat := match t with TK => (d + Z.to_nat (f_ns f mod 2 ^ 64))%nat | _ => d end.
  Lemma call_ok file t s : world_ok (s_world s) ->
    did (call_and_print e grow np f name (text file) (lines_for file) t s) (fst (section e np f o fs file name t (s_n s) (s_draws s)))
      (snd (section e np f o fs file name t (s_n s) (s_draws s))) (next_n t (s_n s)) (next_d t (s_draws s)).
  Proof.
    intros O.
    assert (Fin : forall a x sec, went (call_test e grow np f name (text file) (lines_for file) t s) a x (next_n t (s_n s)) (next_d t (s_draws s)) ->
      sec = (FuncHead name :: a ++ match x with Some (T, d2) => ending f T d2 | None => [] end, match x with Some _ => true | None => false end) ->
      did (call_and_print e grow np f name (text file) (lines_for file) t s) (fst sec) (snd sec) (next_n t (s_n s)) (next_d t (s_draws s))).
    { intros a x sec W ->. now apply print_did. }
    assert (FileT : forall kf, In kf [keyA; keyB; keyC; keyD; keyE; keyF; keyG] ->
      call_test e grow np f name (text file) (lines_for file) t s = call_file e grow np f name (text file) (lines_for file) kf s ->
      next_n t (s_n s) = s_n s -> next_d t (s_draws s) = s_draws s -> opening f name t (s_n s) = [FuncHead name] ->
      section e np f o fs file name t (s_n s) (s_draws s) =
        match insert_all hf (empty_table (lines_for file)) (map kf (lines_of file)) with
        | Ret T => if takes name (map kf (lines_of file)) && whole file then (opening f name t (s_n s) ++ ending f T 0, true) else (opening f name t (s_n s), false)
        | _ => (opening f name t (s_n s), false)
        end -> did (call_and_print e grow np f name (text file) (lines_for file) t s) (fst (section e np f o fs file name t (s_n s) (s_draws s)))
      (snd (section e np f o fs file name t (s_n s) (s_draws s))) (next_n t (s_n s)) (next_d t (s_draws s))).
    { intros kf Hk E N1 N2 Op Es. rewrite Es, Op. eapply Fin; [rewrite E, N1, N2; now apply call_file_ok|].
      destruct (insert_all hf _ _) as [T| |]; try reflexivity. now destruct (takes name _ && whole file). }
    destruct t.
    1-7: eapply FileT; [|reflexivity..]; cbn [In]; tauto.
    - eapply Fin; [apply (call_words_ok letters s fine_letters O)|]. cbn [section test_keys table_for reads negb orb]. fold (seed64 f). rewrite andb_true_r.
      destruct (insert_all hf _ _) as [T| |]; [|reflexivity|reflexivity]. destruct (takes name _); reflexivity.
    - destruct (testI_whole e name (seed64 f) (cf_ni (f_cf f))) as (K1 & K2 & K4).
      pose proof (own_ok (changed f (s_n s)) (changed f (s_n s)) _ _ s O K1 K2 (testI_steady _) K4) as W.
      eapply Fin; [cbn [call_test]; unfold changed in *; apply went_say, W|]. cbn [section test_keys table_for reads negb orb]. fold (seed64 f). rewrite andb_true_r. fold (changed f (s_n s)).
      destruct (insert_all hf _ _) as [T| |]; [|reflexivity|reflexivity]. destruct (takes name _); reflexivity.
    - destruct (testJ_whole e name (seed64 f) 900 ltac:(reflexivity)) as (K1 & K2 & K4).
      pose proof (own_ok (s_n s) 7200 _ _ s O K1 K2 (testJ_steady _) K4) as W.
      eapply Fin; [apply W|]. cbn [section test_keys table_for reads negb orb]. fold (seed64 f). rewrite andb_true_r.
      destruct (insert_all hf _ _) as [T| |]; [|reflexivity|reflexivity]. destruct (takes name _); reflexivity.
    - pose proof (call_keys_ok file s O) as W. cbn [section]. fold (seed64 f). destruct (until (flat_map _ _)) as [a ok]. eapply Fin; [apply W|].
      destruct ok; cbn [opening app]; [reflexivity|now rewrite app_nil_r].
    - eapply Fin; [apply (call_L_ok 256 16777216 s (Nat.le_refl _) O)|]. cbn [section test_keys table_for reads negb orb]. fold (seed64 f). rewrite andb_true_r.
      destruct (insert_all hf _ _) as [T| |]; [|reflexivity|reflexivity]. destruct (takes name _); reflexivity.
    - eapply Fin; [apply (call_mod_ok (changed f (s_n s)) s O)|]. cbn [section]. fold (seed64 f). destruct (_ && _); reflexivity.
  Qed.
End Test.

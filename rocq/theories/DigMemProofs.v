(** One digest in memory behaves like a value. *)
From Coq Require Import NArith ZArith List Arith Lia Bool.
From Verif Require Import Words WordLemmas ListLemmas Blocks Mem KeccakModel KeccakProofs3 KeccakProofs4 KeccakProofs5 SipModel
  JenkinsModel Mm3Model DigMemModel DigMemSpec.
Import ListNotations.
Open Scope N_scope.

(** ** A slice that only its owner appends to *)
Definition tfoot (t : slice) : list nat := if Nat.eqb (cap t) 0 then [] else [arr t].
Definition tok (m : heap) (t : slice) : Prop := wf m t /\ off t = 0%nat.
(** From [m] to [m'] only the arrays in [F] changed, and new ones came. *)
Definition only (F : list nat) (m m' : heap) : Prop :=
  (length m <= length m')%nat /\ forall a, (a < length m)%nat -> ~ In a F -> array m' a = array m a.
Lemma tok_nil m : tok m nil_slice.
Proof. split; [apply wf_nil|reflexivity]. Qed.
Lemma tok_lt m t x : tok m t -> In x (tfoot t) -> (x < length m)%nat.
Proof.
  intros [(_ & _ & W) _] H. unfold tfoot in H. destruct (Nat.eqb_spec (cap t) 0) as [E|E]; [destruct H|].
  destruct H as [<-|[]]. tauto.
Qed.
Lemma tok_frame m m' t : tok m t -> (length m <= length m')%nat -> (forall a, In a (tfoot t) -> array m' a = array m a) ->
  tok m' t /\ read m' t = read m t.
Proof.
  intros [(W1 & W2 & W3) O] L H. unfold tfoot in H. destruct (Nat.eqb_spec (cap t) 0) as [E|E].
  - split; [|unfold read; replace (len t) with 0%nat by lia; reflexivity].
    split; [|exact O]. split; [exact W1|]. split; [lia|]. left. exact E.
  - specialize (H (arr t) (or_introl eq_refl)). split; [|now apply read_same].
    split; [|exact O]. split; [exact W1|]. split; [rewrite H; exact W2|]. right. lia.
Qed.
Lemma store_nil m a o : store m a o [] = m.
Proof. unfold store. cbn [length app]. rewrite Nat.add_0_r, firstn_skipn. apply upd_nth. Qed.
Lemma tok_append grow m t bs m' t' : tok m t -> append grow m t bs = (m', t') ->
  tok m' t' /\ read m' t' = read m t ++ bs /\ only (tfoot t) m m' /\ (forall x, In x (tfoot t') -> In x (tfoot t) \/ (length m <= x)%nat).
Proof.
  intros [W O] E. pose proof (append_frame grow m t bs m' t' W E) as (L & F & Al & A1 & A2).
  assert (O' : off t' = 0%nat). { unfold append in E. destruct (Nat.leb _ _); inversion E; subst; auto. }
  assert (On : only (tfoot t) m m').
  { split; [exact L|]. intros a Ha Hn. unfold tfoot in Hn. destruct (Nat.eqb_spec (cap t) 0) as [C|C]; [now apply A2|]. apply F; [exact Ha|]. intros ->. apply Hn. now left. }
  assert (Ft : forall x, In x (tfoot t') -> In x (tfoot t) \/ (length m <= x)%nat).
  { intros x. unfold append in E. destruct (Nat.leb_spec (len t + length bs) (cap t)); inversion E; subst; unfold tfoot; cbn [cap arr].
    - auto.
    - destruct (Nat.eqb _ 0); [intros []|]. intros [<-|[]]. right. lia. }
  destruct (Nat.eq_dec (len t + length bs) 0) as [Z|Z].
  - assert (bs = []) by (apply length_zero_iff_nil; lia). subst bs. cbn [length] in Z. rewrite Nat.add_0_r in Z.
    assert (E2 : (m', t') = (m, mkSlice (arr t) (off t) 0 (cap t))).
    { rewrite <- E. unfold append. cbn [length]. rewrite Z. cbn [Nat.add Nat.leb]. now rewrite store_nil. }
    injection E2 as -> ->.
    replace (mkSlice (arr t) (off t) 0 (cap t)) with t in * by (destruct t; cbn in *; congruence).
    split; [split; assumption|]. split; [now rewrite app_nil_r|]. split; assumption.
  - destruct (append_read grow m t bs m' t' W E ltac:(lia)) as (R & W' & _). split; [split; assumption|]. split; [exact R|]. split; assumption.
Qed.

(** ** The murmur3 object *)
Definition mshape {S} (B : nat) (m : heap) (d : mmobj S) : Prop :=
  (mm_buf d < length m)%nat /\ length (array m (mm_buf d)) = 16%nat /\ (len (mm_tl d) < B)%nat /\
  (mm_tl d = nil_slice \/ mm_tl d = mkSlice (mm_buf d) 0 (len (mm_tl d)) 16).
Lemma append_buf grow m a n bs : (n + length bs <= 16)%nat ->
  append grow m (mkSlice a 0 n 16) bs = (store m a n bs, mkSlice a 0 (n + length bs) 16).
Proof. intros H. unfold append. cbn [len cap arr off]. apply Nat.leb_le in H. rewrite H. reflexivity. Qed.
Lemma array_copy m a o bs : (a < length m)%nat -> (o + length bs <= length (array m a))%nat ->
  array (store m a o bs) a = fst (copy_at (array m a) o bs).
Proof.
  intros Ha H. rewrite array_store_same by exact Ha. unfold copy_at. cbn [fst].
  rewrite Nat.min_r by lia. rewrite firstn_all. reflexivity.
Qed.
Lemma absorb_end {S} B (f : S -> list N -> S) h p : (0 < B)%nat ->
  let rest := snd (absorb B f h p) in (length rest < B)%nat /\ (length rest <= length p)%nat /\ skipn (length p - length rest) p = rest.
Proof.
  intros HB rest. unfold rest. rewrite absorb_rest_length by exact HB. split; [apply Nat.mod_upper_bound; lia|].
  split; [apply Nat.mod_le; lia|]. rewrite absorb_rest by exact HB. f_equal. pose proof (Nat.div_mod (length p) B ltac:(lia)). lia.
Qed.
Section Murmur.
  Context {S : Type}.
  Variables (grow : nat -> nat -> nat) (B : nat) (f : S -> list N -> S).
  Hypothesis B0 : (0 < B)%nat.
  Hypothesis B16 : (B <= 16)%nat.
  (** What follows the bytes pending at the start. *)
  Lemma mmo_end m (a : nat) h clen p b q : (a < length m)%nat -> length (array m a) = 16%nat -> wf m p -> b = array m a -> read m p = q ->
    let '(h', rest) := absorb B f h (read m p) in
    let tail := from p (len p - length rest) in
    let nn := Nat.min (length (array m a)) (len tail) in
    let m' := store m a 0 (firstn nn (read m tail)) in
    let d' := mkMmo clen (mkSlice a 0 nn (length (array m a))) a h' in
    loadm m' d' = (let '(h', tail) := absorb B f h q in let '(buf, nn) := copy_at b 0 tail in mkMm clen nn buf h') /\
    mshape B m' d' /\ length m' = length m /\ forall x, x <> a -> array m' x = array m x.
  Proof.
    intros Ha La W -> <-. pose proof (absorb_end B f h (read m p) B0) as A. destruct (absorb B f h (read m p)) as [h' rest] eqn:E.
    cbn [snd] in A. destruct A as (A1 & A2 & A3). rewrite read_length in A2, A3 by exact W.
    cbv zeta. set (tail := from p (len p - length rest)).
    assert (Lt : len tail = length rest) by (unfold tail, from; cbn [len]; lia).
    assert (Rt : read m tail = rest) by (unfold tail; rewrite read_from by lia; exact A3).
    rewrite La, Lt, Rt. rewrite (Nat.min_r 16) by lia. rewrite firstn_all.
    split; [|split; [|split; [apply store_length|intros x Hx; now apply array_store_other]]].
    - unfold loadm. cbn [mm_clen mm_tl mm_buf mm_h len]. rewrite array_copy by lia. unfold copy_at. cbn [fst]. rewrite La, Nat.min_r by lia. reflexivity.
    - unfold mshape. cbn [mm_tl mm_buf len]. rewrite store_length, store_array_length by lia. repeat split; auto; try lia. 
  Qed.
  Lemma mmo_write_ok m d p m' d' : mshape B m d -> wf m p -> arr p <> mm_buf d -> mmo_write grow B f m d p = (m', d') ->
    loadm m' d' = fst (mm_write B f (loadm m d) (read m p)) /\ mshape B m' d' /\ length m' = length m /\ mm_buf d' = mm_buf d /\
    forall x, x <> mm_buf d -> array m' x = array m x.
  Proof.
    intros (Sa & Sl & Sn & St) W Hp E. unfold mmo_write in E. unfold mm_write. cbn [mclen mnt mbuf mh loadm]. rewrite read_length by exact W.
    set (n := len (mm_tl d)) in *. set (a := mm_buf d) in *. set (clen := mm_clen d + N.of_nat (len p)) in *.
    destruct (Nat.ltb_spec 0 n) as [N0|N0].
    - assert (Tl : mm_tl d = mkSlice a 0 n 16). { destruct St as [St|St]; [|exact St]. exfalso. unfold n in N0. rewrite St in N0. cbn in N0. lia. }
      rewrite Tl in E. destruct (Nat.ltb_spec (B - n) (len p)) as [Lp|Lp].
      + rewrite read_upto in E by lia. set (q := firstn (B - n) (read m p)) in *.
        assert (Lq : length q = (B - n)%nat) by (unfold q; rewrite firstn_length, read_length by exact W; lia).
        rewrite append_buf in E by lia. set (m1 := store m a n q) in *.
        assert (L1 : length m1 = length m) by apply store_length.
        assert (A1 : array m1 a = fst (copy_at (array m a) n q)) by (apply array_copy; lia).
        assert (Rp : read m1 (from p (B - n)) = skipn (B - n) (read m p)).
        { rewrite (read_same m m1) by (cbn [arr from]; unfold m1; now apply array_store_other). apply read_from. lia. }
        assert (Wp : wf m1 (from p (B - n))).
        { pose proof (wf_from m p (B - n) W ltac:(lia)) as (W1 & W2 & W3). split; [exact W1|]. split; [|now rewrite L1].
          unfold m1. rewrite array_store_other by exact Hp. exact W2. }
        assert (Rb : read m1 (mkSlice a 0 (n + length q) 16) = firstn (n + (B - n)) (fst (copy_at (array m a) n q))).
        { unfold read. cbn [len off arr skipn]. rewrite A1, Lq. reflexivity. }
        rewrite Rb in E. destruct (copy_at (array m a) n q) as [bf nb] eqn:Ec. cbn [fst] in *.
        destruct (absorb B f (mm_h d) (firstn (n + (B - n)) bf)) as [h1 r1].
        pose proof (mmo_end m1 a h1 clen (from p (B - n)) bf (skipn (B - n) (read m p)) ltac:(lia)
                      ltac:(unfold m1; rewrite store_array_length by lia; exact Sl) Wp (eq_sym A1) Rp) as M.
        rewrite Rp in E, M. destruct (absorb B f h1 (skipn (B - n) (read m p))) as [h2 r2]. cbv zeta in M. inversion E; subst m' d'; clear E.
        destruct M as (M1 & M2 & M3 & M4). destruct (copy_at bf 0 r2) as [b2 n2]. cbn [fst]. cbn [mm_buf].
        split; [exact M1|]. split; [exact M2|]. split; [etransitivity; [exact M3|exact L1]|]. split; [reflexivity|].
        intros x Hx. rewrite M4 by exact Hx. unfold m1. now apply array_store_other.
      + set (q := read m p) in *. assert (Lq : length q = len p) by (unfold q; now rewrite read_length).
        rewrite append_buf in E by lia. set (m1 := store m a n q) in *.
        assert (L1 : length m1 = length m) by apply store_length.
        assert (A1 : array m1 a = fst (copy_at (array m a) n q)) by (apply array_copy; lia).
        assert (Wb : wf m1 (mkSlice a 0 (n + length q) 16)).
        { split; cbn [len cap off arr]; [lia|]. split; [|lia]. unfold m1. rewrite store_array_length by lia. lia. }
        assert (Rb : read m1 (mkSlice a 0 (n + length q) 16) = firstn (n + len p) (fst (copy_at (array m a) n q))).
        { unfold read. cbn [len off arr skipn]. rewrite A1, Lq. reflexivity. }
        destruct (copy_at (array m a) n q) as [bf nb] eqn:Ec. cbn [fst] in *.
        pose proof (mmo_end m1 a (mm_h d) clen (mkSlice a 0 (n + length q) 16) bf (firstn (n + len p) bf) ltac:(lia)
                      ltac:(unfold m1; rewrite store_array_length by lia; exact Sl) Wb (eq_sym A1) Rb) as M.
        rewrite Rb in E, M. destruct (absorb B f (mm_h d) (firstn (n + len p) bf)) as [h2 r2]. cbv zeta in M. inversion E; subst m' d'; clear E.
        destruct M as (M1 & M2 & M3 & M4). destruct (copy_at bf 0 r2) as [b2 n2]. cbn [fst]. cbn [mm_buf].
        split; [exact M1|]. split; [exact M2|]. split; [etransitivity; [exact M3|exact L1]|]. split; [reflexivity|].
        intros x Hx. rewrite M4 by exact Hx. unfold m1. now apply array_store_other.
    - pose proof (mmo_end m a (mm_h d) clen p (array m a) (read m p) Sa Sl W eq_refl eq_refl) as M.
      destruct (absorb B f (mm_h d) (read m p)) as [h2 r2]. cbv zeta in M. inversion E; subst m' d'; clear E.
      destruct M as (M1 & M2 & M3 & M4). destruct (copy_at (array m a) 0 r2) as [b2 n2]. cbn [fst]. cbn [mm_buf].
      split; [exact M1|]. split; [exact M2|]. split; [exact M3|]. split; [reflexivity|exact M4].
  Qed.
  Lemma mshape_frame m m' (d : mmobj S) : mshape B m d -> (length m <= length m')%nat -> array m' (mm_buf d) = array m (mm_buf d) ->
    mshape B m' d /\ loadm m' d = loadm m d.
  Proof. intros (A & L & N & T) Hl Ha. unfold mshape, loadm. rewrite Ha. split; [|reflexivity]. repeat split; auto; lia. Qed.
End Murmur.

(** ** All objects *)
Definition foot (o : obj) : list nat :=
  match o with
  | J3 d => tfoot (j3_tail d) | J6 d => tfoot (j6_tail d) | J2 d => tfoot (j2_tail d)
  | M4 d => [mm_buf d] | M8 d => [mm_buf d] | M16 d => [mm_buf d] | SP _ => []
  end.
Definition is (m : heap) (o : obj) (v : value) : Prop :=
  match o, v with
  | J3 d, V3 s => load3 m d = s /\ tok m (j3_tail d) | J6 d, V6 s => load6 m d = s /\ tok m (j6_tail d) | J2 d, V2 s => load2 m d = s /\ tok m (j2_tail d)
  | M4 d, V4 s => loadm m d = s /\ mshape 4 m d | M8 d, V8 s => loadm m d = s /\ mshape 16 m d | M16 d, V16 s => loadm m d = s /\ mshape 16 m d
  | SP d, VS s => d = s /\ True
  | _, _ => False
  end.
Lemma is_lt m o v x : is m o v -> In x (foot o) -> (x < length m)%nat.
Proof.
  destruct o, v; cbn; try tauto; intros [_ H]; try (now apply tok_lt); try (intros [<-|[]]; apply H); intros [].
Qed.
Lemma is_frame m m' o v : is m o v -> (length m <= length m')%nat -> (forall a, In a (foot o) -> array m' a = array m a) -> is m' o v.
Proof.
  destruct o, v; cbn; try tauto; intros [E H] L F.
  1-3: destruct (tok_frame m m' _ H L F) as [T R]; split; [|exact T]; rewrite <- E; unfold load3, load6, load2; now rewrite R.
  all: rewrite <- E; apply and_comm; apply mshape_frame; first [lia|exact H|apply F; now left].
Qed.
Lemma is_new m k m' o : obj_new m k = (m', o) -> is m' o (v_new k) /\ only [] m m' /\ forall x, In x (foot o) -> (length m <= x)%nat.
Proof.
  assert (Mm : forall S B (h0 : S), (0 < B)%nat -> loadm (m ++ [repeat 0 16]) (mkMmo 0 nil_slice (length m) h0) = mm_new h0 /\
                mshape B (m ++ [repeat 0 16]) (mkMmo 0 nil_slice (length m) h0)).
  { intros S B h0 HB. unfold loadm, mshape. cbn [mm_clen mm_tl mm_buf mm_h]. rewrite array_last, app_length. cbn [length].
    split; [reflexivity|]. repeat split; auto; try (cbn; lia). }
  destruct k; cbn [obj_new]; intros E; apply pair_equal_spec in E; destruct E as [<- <-]; cbn [is foot].
  1-3: split; [split; [reflexivity|apply tok_nil]|]; split; [split; auto|intros x []].
  all: split; [apply Mm; lia|]; split; [split; [rewrite app_length; lia|intros a Ha _; now apply array_app]|]; cbn [mm_buf]; intros x [<-|[]]; lia.
Qed.
Lemma is_write grow m o v p m' o' : is m o v -> wf m p -> ~ In (arr p) (foot o) -> obj_write grow m o p = (m', o') ->
  is m' o' (v_write v (read m p)) /\ only (foot o) m m' /\ forall x, In x (foot o') -> In x (foot o) \/ (length m <= x)%nat.
Proof.
  destruct o as [d|d|d|d|d|d|d], v; cbn [is]; try tauto; intros [E H] W Hn Eo; cbn [obj_write] in Eo.
  1-3: destruct (append _ _ _ _) as [m1 t1] eqn:Ea; inversion Eo; subst m' o'; clear Eo;
       destruct (tok_append _ _ _ _ _ _ H Ea) as (T & R & O & Ft); cbn [is foot v_write j3_tail j6_tail j2_tail];
       (split; [|split; [exact O|exact Ft]]); split; [|exact T]; rewrite <- E;
       unfold load3, load6, load2, write332, write364, write232; cbn; now rewrite R.
  4: inversion Eo; subst; cbn [is foot v_write sip_write fst]; repeat split; auto; tauto.
  all: destruct (mmo_write _ _ _ _ _ _) as [m1 d1] eqn:Ea; inversion Eo; subst m' o'; clear Eo; cbn [foot] in Hn;
       (apply mmo_write_ok in Ea; [|lia|lia|exact H|exact W|intros X; apply Hn; left; congruence]); destruct Ea as (R & S & L & Eb & F);
       cbn [is foot v_write]; subst d0; (split; [split; [exact R|exact S]|]); rewrite Eb;
       (split; [split; [lia|intros x _ Hx; apply F; intros ->; apply Hx; now left]|intros x Hx; now left]).
Qed.
Lemma is_sum m o v : is m o v ->
  match v_sum v with
  | Ok (v', b) => exists o', obj_sum m o = Ok (o', b) /\ is m o' v' /\ foot o' = foot o
  | Panics => obj_sum m o = Panics | Overread => obj_sum m o = Overread | NoFuel => obj_sum m o = NoFuel
  end.
Proof.
  destruct o, v; cbn [is]; try tauto; intros [<- H]; cbn [v_sum obj_sum].
  1-3: unfold sum_332, sum32_332, sum_364, sum_232, sum32_232;
       repeat (match goal with |- context [rbind ?x _] => lazymatch x with rbind _ _ => fail | _ => idtac end; destruct x as [y| | |]; cbn [rbind]; try reflexivity; try (destruct y as [y1 y2]; cbn [rbind]) end);
       eexists; (split; [reflexivity|]); cbn; (split; [split; [reflexivity|exact H]|reflexivity]).
  all: eexists; split; [reflexivity|]; split; [split; [reflexivity|exact H]|reflexivity].
Qed.
Lemma is_num m o v : is m o v ->
  match v_num v with
  | Ok (v', b) => exists o', obj_num m o = Ok (o', b) /\ is m o' v' /\ foot o' = foot o
  | Panics => obj_num m o = Panics | Overread => obj_num m o = Overread | NoFuel => obj_num m o = NoFuel
  end.
Proof.
  destruct o, v; cbn [is]; try tauto; intros [<- H]; cbn [v_num obj_num].
  1-3: unfold sum32_332, sum64_364, sum32_232;
       repeat (match goal with |- context [rbind ?x _] => lazymatch x with rbind _ _ => fail | _ => idtac end; destruct x as [y| | |]; cbn [rbind]; try reflexivity; try (destruct y as [y1 y2]; cbn [rbind]) end);
       eexists; (split; [reflexivity|]); cbn; (split; [split; [reflexivity|exact H]|reflexivity]).
  all: eexists; split; [reflexivity|]; split; [split; [reflexivity|exact H]|reflexivity].
Qed.
Lemma is_reset m o v : is m o v -> is m (obj_reset o) (v_reset v) /\ forall x, In x (foot (obj_reset o)) -> In x (foot o).
Proof.
  destruct o, v; cbn [is]; try tauto; intros [<- H]; cbn [v_reset obj_reset is foot].
  1-3: cbn; (split; [split; [reflexivity|apply tok_nil]|tauto]).
  4: now split.
  all: (split; [split; [reflexivity|]|tauto]); destruct H as (A & L & _); unfold mshape; cbn; repeat split; auto; lia.
Qed.

(** ** Sharing between copies *)
Definition jen (o : obj) : bool := match o with J3 _ | J6 _ | J2 _ => true | _ => false end.
Definition tl (o : obj) : slice :=
  match o with J3 d => j3_tail d | J6 d => j6_tail d | J2 d => j2_tail d | M4 d => mm_tl d | M8 d => mm_tl d | M16 d => mm_tl d | SP _ => nil_slice end.
Definition tlen (o : obj) : nat := len (tl o).
(** Unchanged where the first [n] cells of an array are concerned. *)
Definition prefix_same (n : nat) (m m' : heap) (a : nat) : Prop :=
  length (array m' a) = length (array m a) /\ firstn n (array m' a) = firstn n (array m a).
Lemma is_frame_pre m m' o v : is m o v -> (length m <= length m')%nat ->
  (forall a, In a (foot o) -> array m' a = array m a \/ jen o = true /\ prefix_same (tlen o) m m' a) -> is m' o v.
Proof.
  assert (T : forall t, tok m t -> (length m <= length m')%nat -> (forall a, In a (tfoot t) -> array m' a = array m a \/ prefix_same (len t) m m' a) ->
    tok m' t /\ read m' t = read m t).
  { intros t Ht L H. pose proof Ht as [(W1 & W2 & W3) O]. unfold tfoot in H. destruct (Nat.eqb_spec (cap t) 0) as [E|E].
    - apply (tok_frame m m' t Ht L). unfold tfoot. rewrite E. intros a [].
    - specialize (H (arr t) (or_introl eq_refl)).
      assert (P : prefix_same (len t) m m' (arr t)) by (destruct H as [H|H]; [split; now rewrite H|exact H]).
      destruct P as [P1 P2]. split; [|unfold read; rewrite O; exact P2].
      split; [|exact O]. split; [exact W1|]. split; [rewrite P1; exact W2|]. right. lia. }
  destruct o as [d|d|d|d|d|d|d], v; cbn [is foot jen]; try tauto; intros [E H] L F.
  1-3: destruct (T _ H L) as [T1 R]; [intros a Ha; destruct (F a Ha) as [X|[_ X]]; [now left|now right]|];
       split; [|exact T1]; rewrite <- E; unfold load3, load6, load2; now rewrite R.
  all: rewrite <- E; apply and_comm; (apply mshape_frame; first [lia|exact H|destruct (F (mm_buf d) (or_introl eq_refl)) as [X|[X _]]; [exact X|discriminate]]).
Qed.
Lemma append_prefix grow m t bs m' t' : tok m t -> append grow m t bs = (m', t') ->
  (forall a, In a (tfoot t) -> prefix_same (len t) m m' a) /\ (forall x, In x (tfoot t) -> In x (tfoot t') -> (len t <= len t')%nat).
Proof.
  intros Ht E. pose proof Ht as [(W1 & W2 & W3) O]. split.
  - intros a Ha. pose proof (tok_lt m t a Ht Ha) as La.
    pose proof (append_frame grow m t bs m' t' (proj1 Ht) E) as (_ & _ & Al & _). split; [now apply Al|].
    unfold tfoot in Ha. destruct (Nat.eqb_spec (cap t) 0) as [C|C]; [destruct Ha|]. destruct Ha as [<-|[]].
    unfold append in E. destruct (Nat.leb_spec (len t + length bs) (cap t)) as [L|L]; inversion E; subst m' t'; clear E.
    + rewrite array_store_same by exact La. rewrite O in *. cbn [Nat.add]. rewrite firstn_app, firstn_firstn, Nat.min_id, firstn_length.
      rewrite Nat.min_l by lia. rewrite Nat.sub_diag. cbn [firstn]. now rewrite app_nil_r.
    + now rewrite array_app.
  - intros x _ _. unfold append in E. destruct (Nat.leb _ _); inversion E; subst; cbn [len]; lia.
Qed.
Lemma write_prefix grow m o v p m' o' : is m o v -> obj_write grow m o p = (m', o') ->
  jen o' = jen o /\ (jen o = true -> (forall a, In a (foot o) -> prefix_same (tlen o) m m' a) /\ forall x, In x (foot o) -> In x (foot o') -> (tlen o <= tlen o')%nat).
Proof.
  destruct o as [d|d|d|d|d|d|d], v; cbn [is]; try tauto; intros [_ H] Eo; cbn [obj_write] in Eo.
  1-3: destruct (append _ _ _ _) as [m1 t1] eqn:Ea; inversion Eo; subst m' o'; clear Eo; cbn [jen foot]; (split; [reflexivity|]); intros _;
       unfold tlen; cbn [tl j3_tail j6_tail j2_tail]; apply (append_prefix _ _ _ _ _ _ H Ea).
  4: inversion Eo; subst; cbn [jen]; split; [reflexivity|discriminate].
  all: destruct (mmo_write _ _ _ _ _ _) as [m1 d1] eqn:Ea; inversion Eo; subst m' o'; clear Eo; cbn [jen]; split; [reflexivity|discriminate].
Qed.
Lemma sum_tl m o o' b : obj_sum m o = Ok (o', b) -> jen o' = jen o /\ tlen o' = tlen o.
Proof.
  destruct o; cbn [obj_sum]; unfold sum_332, sum32_332, sum_364, sum_232, sum32_232;
    repeat (match goal with |- context [rbind ?x _] => lazymatch x with rbind _ _ => fail | _ => idtac end; destruct x as [y| | |]; cbn [rbind]; try discriminate; try (destruct y as [y1 y2]; cbn [rbind]) end);
    intros E; injection E as <- _; split; reflexivity.
Qed.
Lemma num_tl m o o' b : obj_num m o = Ok (o', b) -> jen o' = jen o /\ tlen o' = tlen o.
Proof.
  destruct o; cbn [obj_num]; unfold sum32_332, sum64_364, sum32_232;
    repeat (match goal with |- context [rbind ?x _] => lazymatch x with rbind _ _ => fail | _ => idtac end; destruct x as [y| | |]; cbn [rbind]; try discriminate; try (destruct y as [y1 y2]; cbn [rbind]) end);
    intros E; injection E as <- _; split; reflexivity.
Qed.
Lemma reset_jen o : jen (obj_reset o) = jen o /\ (jen o = true -> foot (obj_reset o) = []).
Proof. destruct o; split; cbn; auto; discriminate. Qed.

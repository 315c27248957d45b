(** A small model of the amd64 instructions used by siphash/hash_amd64.s and
    siphash/hash128_amd64.s (Go assembler syntax: source operand first).  The
    programs themselves are in SipAsmProg.v, transcribed line by line.

    Memory is the byte slice argument only: an address outside it makes the
    machine stuck, so a run that returns proves every load was inside the slice.
    Flags other than zero and carry are not modelled; an instruction that changes
    the flags in a way nothing in the programs uses makes them undefined, and a
    conditional jump on undefined flags makes the machine stuck. *)
From Verif Require Import Words ListLemmas.
Open Scope N_scope.

(** The registers used in hash_amd64.s:5-200 and hash128_amd64.s:12-290. *)
Inductive reg := AX | BX | CX | DX | SI | DI | R8 | R9 | R10 | R11.
Definition ridx (r : reg) : nat :=
  match r with AX => 0 | BX => 1 | CX => 2 | DX => 3 | SI => 4 | DI => 5 | R8 => 6 | R9 => 7 | R10 => 8 | R11 => 9 end.

(** The labels of hash_amd64.s:5-200 and hash128_amd64.s:12-290. *)
Inductive label := L_loopBody | L_afterLoop | L_sw7 | L_sw6 | L_sw5 | L_sw4 | L_sw3 | L_sw2 | L_sw1 | L_afterSwitch.
Definition label_eqb (a b : label) : bool :=
  match a, b with
  | L_loopBody, L_loopBody | L_afterLoop, L_afterLoop | L_sw7, L_sw7 | L_sw6, L_sw6 | L_sw5, L_sw5
  | L_sw4, L_sw4 | L_sw3, L_sw3 | L_sw2, L_sw2 | L_sw1, L_sw1 | L_afterSwitch, L_afterSwitch => true
  | _, _ => false
  end.

(** The argument slots k0+0(FP), k1+8(FP), b_base+16(FP), b_len+24(FP)
    (hash_amd64.s:6-21). *)
Inductive arg := A_k0 | A_k1 | A_base | A_len.

(** The instructions of hash_amd64.s:5-200 and hash128_amd64.s:12-290. *)
Inductive instr :=
| IMovArg (a : arg) (d : reg)              (* MOVQ k0+0(FP),d *)
| IMovImm (c : N) (d : reg)                (* MOVQ $c,d *)
| IMov (s d : reg)                         (* MOVQ s,d *)
| ILoad64 (disp : N) (b i d : reg)         (* MOVQ disp(b)(i*1),d *)
| ILoad8 (disp : N) (b i d : reg)          (* MOVBQZX disp(b)(i*1),d *)
| ILea (b i d : reg)                       (* LEAQ (b)(i*1),d *)
| IAdd (s d : reg) | IXor (s d : reg) | ISub (s d : reg) | IOr (s d : reg)
| IAddImm (c : N) (d : reg) | IXorImm (c : N) (d : reg) | IAndImm (c : N) (d : reg)
| IXorbImm (c : N) (d : reg)               (* XORB $c,CL: low byte only *)
| IShlImm (k : N) (d : reg) | IRorImm (k : N) (d : reg)
| IXchg (a b : reg)
| ICmp (a b : reg) | ICmpImm (a : reg) (c : N)
| IJe (l : label) | IJa (l : label) | IJmp (l : label)
| ILabel (l : label)
| IStoreRet (slot : nat) (s : reg)         (* MOVQ s,ret+40(FP) *)
| IRet.

(** Machine state: program counter, registers (indexed by [ridx]), flags
    (zero, carry) when defined, and the result slots
    (hash_amd64.s:5-200, hash128_amd64.s:12-290). *)
Record mstate := MS { pc : nat; rs : list N; fl : option (bool * bool); out : list N }.

(** The call: key halves, address of the slice and its bytes
    (hash_amd64.s:5-10, hash128_amd64.s:12-20). *)
Record call := Call { c_k0 : N; c_k1 : N; c_base : N; c_mem : list N }.

(** A register operand, hash_amd64.s:5-200. *)
Definition get (r : reg) (st : mstate) : N := nth (ridx r) (rs st) 0.

(** A load of [n] bytes at [addr]; [None] if it is not inside the slice
    (the MOVQ, MOVL, MOVW, MOVB of hash_amd64.s:5-200). *)
Definition load_mem (c : call) (addr : N) (n : nat) : option N :=
  if c_base c <=? addr then
    option_map le_load (slice (c_mem c) (N.to_nat (addr - c_base c)) n)
  else None.

(** The arguments k0, k1, p on the frame, hash_amd64.s:5-10. *)
Definition arg_val (c : call) (a : arg) : N :=
  match a with
  | A_k0 => c_k0 c | A_k1 => c_k1 c | A_base => c_base c | A_len => N.of_nat (length (c_mem c))
  end.

(** The target of a jump, hash_amd64.s:5-200. *)
Fixpoint find_label (l : label) (p : list instr) (i : nat) : option nat :=
  match p with
  | [] => None
  | ILabel l' :: r => if label_eqb l l' then Some i else find_label l r (S i)
  | _ :: r => find_label l r (S i)
  end.

(** What one instruction of hash_amd64.s:5-200 leads to. *)
Inductive mres := Next (st : mstate) | Halt (o : list N) | Stuck.

(** Register write, falling through to the next instruction (hash_amd64.s:5-200). *)
Definition put (st : mstate) (d : reg) (x : N) (f : option (bool * bool)) : mres :=
  Next (MS (S (pc st)) (upd (rs st) (ridx d) x) f (out st)).
Definition jump (p : list instr) (l : label) (st : mstate) : mres :=
  match find_label l p 0 with
  | Some i => Next (MS i (rs st) (fl st) (out st))
  | None => Stuck
  end.
Definition skip (st : mstate) (f : option (bool * bool)) : mres := Next (MS (S (pc st)) (rs st) f (out st)).

(** One instruction (hash_amd64.s:5-200, hash128_amd64.s:12-290). *)
Definition mstep (c : call) (p : list instr) (st : mstate) : mres :=
  match nth_error p (pc st) with
  | None => Stuck
  | Some i =>
      match i with
      | IMovArg a d => put st d (arg_val c a) (fl st)
      | IMovImm x d => put st d x (fl st)
      | IMov s d => put st d (get s st) (fl st)
      | ILoad64 disp b ix d =>
          match load_mem c (add64 (add64 (get b st) (get ix st)) disp) 8 with
          | Some x => put st d x (fl st) | None => Stuck end
      | ILoad8 disp b ix d =>
          match load_mem c (add64 (add64 (get b st) (get ix st)) disp) 1 with
          | Some x => put st d x (fl st) | None => Stuck end
      | ILea b ix d => put st d (add64 (get b st) (get ix st)) (fl st)
      | IAdd s d => put st d (add64 (get d st) (get s st)) None
      | IXor s d => put st d (xor (get d st) (get s st)) None
      | ISub s d => put st d (sub64 (get d st) (get s st)) None
      | IOr s d => put st d (N.lor (get d st) (get s st)) None
      | IAddImm x d => put st d (add64 (get d st) x) None
      | IXorImm x d => put st d (xor (get d st) x) None
      | IAndImm x d => let y := N.land (get d st) x in put st d y (Some (y =? 0, false))
      | IXorbImm x d => put st d (N.lor (N.ldiff (get d st) 0xff) (xor (N.land (get d st) 0xff) x)) None
      | IShlImm k d => put st d (shl64 (get d st) k) None
      | IRorImm k d => put st d (rotr64 (get d st) k) None
      | IXchg a b => Next (MS (S (pc st)) (upd (upd (rs st) (ridx a) (get b st)) (ridx b) (get a st)) (fl st) (out st))
      | ICmp a b => skip st (Some (get a st =? get b st, get a st <? get b st))
      | ICmpImm a x => skip st (Some (get a st =? x, get a st <? x))
      | IJe l => match fl st with
                 | Some (z, _) => if z then jump p l st else skip st (fl st)
                 | None => Stuck end
      | IJa l => match fl st with
                 | Some (z, cf) => if negb z && negb cf then jump p l st else skip st (fl st)
                 | None => Stuck end
      | IJmp l => jump p l st
      | ILabel _ => skip st (fl st)
      | IStoreRet slot s => Next (MS (S (pc st)) (rs st) (fl st) (upd (out st) slot (get s st)))
      | IRet => Halt (out st)
      end
  end.

(** Running with a step bound: [Some o] when it returned with result slots [o]
    (hash_amd64.s:5-200, hash128_amd64.s:12-290). *)
Fixpoint mrun (fuel : nat) (c : call) (p : list instr) (st : mstate) : option (list N) :=
  match fuel with
  | O => None
  | S n => match mstep c p st with
           | Next st' => mrun n c p st'
           | Halt o => Some o
           | Stuck => None
           end
  end.

(** Entry state: arbitrary register contents [r], undefined flags
    (hash_amd64.s:5, hash128_amd64.s:12). *)
Definition entry (r : list N) : mstate := MS 0 r None [0; 0].

(** An interpreter for the straight-line amd64 code of sm2/sm2p256_amd64.s (Go assembler syntax: source first, destination last).
    Registers and memory words hold integers in [0, 2^64); CF is the carry flag, ZF the zero flag.  Only the flags the
    routines read afterwards are modelled: CF after ADD/ADC/SUB/SBB/XOR/AND/MUL, ZF after AND.  SHL and SHR change CF in
    hardware, but no routine reads CF between a shift and the next flag-setting instruction: the interpreter makes CF
    unavailable there ([cf := None]) and a read of it is an error, so this is checked, not assumed. *)
From Coq Require Import ZArith List Bool.
Import ListNotations.
Local Open Scope Z_scope.

Inductive reg := AX | BX | CX | DX | SI | DI | BP | R8 | R9 | R10 | R11 | R12 | R13 | R14 | R15.
Definition reg_eqb (a b : reg) : bool :=
  match a, b with
  | AX, AX | BX, BX | CX, CX | DX, DX | SI, SI | DI, DI | BP, BP | R8, R8 | R9, R9 | R10, R10 | R11, R11 | R12, R12
  | R13, R13 | R14, R14 | R15, R15 => true
  | _, _ => false
  end.
(** Mem k i: word i of pointer argument k; Cst k: word k of the constants below *)
Inductive opnd := Reg (r : reg) | Imm (z : Z) | Mem (k i : nat) | Cst (k : nat).
Inductive instr :=
| MOVQ (s d : opnd) | MULQ (s : opnd) | ADDQ (s d : opnd) | ADCQ (s d : opnd) | SUBQ (s d : opnd) | SBBQ (s d : opnd)
| SHLQ (s d : opnd) | SHRQ (s d : opnd) | XORQ (s d : opnd) | ANDQ (s d : opnd) | CMOVQCS (s d : opnd) | CMOVQEQ (s d : opnd).
(* p256const2, p256const3, p256GmordK0, p256Gmord (4 words), p256Gmone (4 words): sm2p256_amd64.s:27-43 *)
Definition consts : list Z :=
  [0xffffffff00000000; 0xfffffffeffffffff; 0x327F9E8872350975;
   0x53BBF40939D54123; 0x7203DF6B21C6052B; 0xFFFFFFFFFFFFFFFF; 0xFFFFFFFEFFFFFFFF;
   0x0000000000000001; 0x00000000FFFFFFFF; 0x0000000000000000; 0x0000000100000000].

Record mach := mkM { m_reg : reg -> Z; m_mem : nat -> nat -> Z; m_cf : option bool; m_zf : option bool }.
Definition low64 (z : Z) : Z := Z.land z (Z.ones 64).
Definition get (m : mach) (o : opnd) : Z :=
  match o with Reg r => m_reg m r | Imm z => z | Mem k i => m_mem m k i | Cst k => nth k consts 0 end.
Definition set (m : mach) (o : opnd) (v : Z) : option mach :=
  match o with
  | Reg r => Some (mkM (fun r' => if reg_eqb r r' then v else m_reg m r') (m_mem m) (m_cf m) (m_zf m))
  | Mem k i => Some (mkM (m_reg m) (fun k' i' => if Nat.eqb k k' && Nat.eqb i i' then v else m_mem m k' i') (m_cf m) (m_zf m))
  | _ => None
  end.
Definition flags (cf zf : option bool) (m : mach) : mach := mkM (m_reg m) (m_mem m) cf zf.
Definition b2z (b : bool) : Z := if b then 1 else 0.
(* d := d + s + c *)
Definition addc (m : mach) (s d : opnd) (c : bool) : option mach :=
  let t := get m d + get m s + b2z c in option_map (flags (Some (2 ^ 64 <=? t)) None) (set m d (low64 t)).
Definition subc (m : mach) (s d : opnd) (c : bool) : option mach :=
  let t := get m d - get m s - b2z c in option_map (flags (Some (t <? 0)) None) (set m d (low64 t)).
Definition step (m : mach) (i : instr) : option mach :=
  match i with
  | MOVQ s d => set m d (get m s)
  | MULQ s => let t := m_reg m AX * get m s in
      match set m (Reg AX) (low64 t) with Some m => option_map (flags None None) (set m (Reg DX) (Z.shiftr t 64)) | None => None end
  | ADDQ s d => addc m s d false
  | ADCQ s d => match m_cf m with Some c => addc m s d c | None => None end
  | SUBQ s d => subc m s d false
  | SBBQ s d => match m_cf m with Some c => subc m s d c | None => None end
  | SHLQ s d => option_map (flags None None) (set m d (low64 (Z.shiftl (get m d) (get m s))))
  | SHRQ s d => option_map (flags None None) (set m d (Z.shiftr (get m d) (get m s)))
  | XORQ s d => option_map (flags (Some false) None) (set m d (Z.lxor (get m d) (get m s)))
  | ANDQ s d => let t := Z.land (get m d) (get m s) in option_map (flags (Some false) (Some (t =? 0))) (set m d t)
  | CMOVQCS s d => match m_cf m with Some c => if c then set m d (get m s) else Some m | None => None end
  | CMOVQEQ s d => match m_zf m with Some z => if z then set m d (get m s) else Some m | None => None end
  end.
Fixpoint run (m : mach) (l : list instr) : option mach :=
  match l with [] => Some m | i :: l => match step m i with Some m => run m l | None => None end end.
(** calling a routine: the words of the two arguments in memory, registers undefined (here 0; the routines read none) *)
Definition word (z : Z) (i : nat) : Z := low64 (Z.shiftr z (64 * Z.of_nat i)).
Definition start (x y : Z) : mach :=
  mkM (fun _ => 0) (fun k i => match k with O => word x i | S O => word y i | _ => 0 end) None None.
Definition result (m : option mach) : option Z :=
  match m with
  | Some m => let w := m_mem m 2%nat in
      Some (w 0%nat + Z.shiftl (w 1%nat) 64 + Z.shiftl (w 2%nat) 128 + Z.shiftl (w 3%nat) 192)
  | None => None
  end.
Definition call2 (code : list instr) (x y : Z) : option Z := result (run (start x y) code).
(** calling an internal routine: first argument in acc4..acc7 (R10-R13), second in t0..t3 (R14, R15, DI, SI), result in acc4..acc7 *)
Definition start_in (x y : Z) : mach :=
  mkM (fun r => match r with R10 => word x 0 | R11 => word x 1 | R12 => word x 2 | R13 => word x 3
                           | R14 => word y 0 | R15 => word y 1 | DI => word y 2 | SI => word y 3 | _ => 0 end)
      (fun _ _ => 0) None None.
Definition result_in (m : option mach) : option Z :=
  match m with
  | Some m => let w := m_reg m in Some (w R10 + Z.shiftl (w R11) 64 + Z.shiftl (w R12) 128 + Z.shiftl (w R13) 192)
  | None => None
  end.
Definition call_in (code : list instr) (x y : Z) : option Z := result_in (run (start_in x y) code).

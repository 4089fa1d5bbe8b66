(** * The demo firmware of the example SoC

    Models examples/attosoc.py:949-984 (the program text given to [AttoSoC.rom] when no other
    program is requested on the command line) and what the [rom] setter (attosoc.py:819-825) makes
    of a string: it hands it to [bronzebeard.asm.assemble].  bronzebeard is not part of the
    repository; the assembler below covers the instructions and pseudo-instructions the text uses
    (RISC-V assembly manual), anything else makes it return [None].  The result is a list of
    instructions of Isa.v; their encoding is [decode] read backwards ([encode], checked below). *)
From Coq Require Import String Ascii List ZArith Bool.
From Verif Require Import Bits Isa.
Import ListNotations.
Open Scope string_scope.
Open Scope list_scope.
Open Scope Z_scope.

(** examples/attosoc.py:950-984, verbatim. *)
Definition demo_text : string := "
            li      s0,2
            lui     s1,0x2000  # IO port at 0x2000000
            li      s3,256
    outer:
            addi    s0,s0,1
            blt     s0,s3,noinit
            li      s0,2
    noinit:
            li      s2,2
    next_int:
            bge     s2,s0,write_io
            mv      a0,s0
            mv      a1,s2
            call    prime?
            beqz    a0,not_prime
            addi    s2,s2,1
            j       next_int
    write_io:
            sw      s0,0(s1)
            call    delay
    not_prime:
            j       outer
    prime?:
            li      t0,1
    submore:
            sub     a0,a0,a1
            bge     a0,t0,submore
            ret
    delay:
            li      t0,360000
    countdown:
            addi    t0,t0,-1
            bnez    t0,countdown
            ret
    ".

(** ** Lines and words *)
Definition nl : ascii := ascii_of_nat 10.
Definition is_sep (c : ascii) : bool :=
  Ascii.eqb c " " || Ascii.eqb c "," || Ascii.eqb c "(" || Ascii.eqb c ")".
Definition flush (cur : list ascii) (ws : list string) : list string :=
  match cur with [] => ws | _ => ws ++ [string_of_list_ascii cur] end.
(** Words of every line; a comment runs from # to the end of the line. *)
Fixpoint lines (l : list ascii) (cm : bool) (cur : list ascii) (ws : list string) : list (list string) :=
  match l with
  | [] => [flush cur ws]
  | c :: r =>
    if Ascii.eqb c nl then flush cur ws :: lines r false [] []
    else if cm then lines r true cur ws
    else if Ascii.eqb c "#" then lines r true [] (flush cur ws)
    else if is_sep c then lines r false [] (flush cur ws)
    else lines r false (cur ++ [c]) ws
  end.

(** ** Numbers and registers *)
Definition digit (c : ascii) : option Z :=
  let n := Z.of_nat (nat_of_ascii c) in
  if (48 <=? n) && (n <=? 57) then Some (n - 48)
  else if (97 <=? n) && (n <=? 102) then Some (n - 87) else None.
Fixpoint digits (base acc : Z) (l : list ascii) : option Z :=
  match l with
  | [] => Some acc
  | c :: r => match digit c with Some d => if d <? base then digits base (acc * base + d) r else None | None => None end
  end.
Definition unsigned (l : list ascii) : option Z :=
  match l with
  | [] => None
  | "0"%char :: "x"%char :: r => digits 16 0 r
  | _ => digits 10 0 l
  end.
Definition number (s : string) : option Z :=
  match list_ascii_of_string s with
  | "-"%char :: r => option_map Z.opp (unsigned r)
  | l => unsigned l
  end.
(** The registers of the standard calling convention (zero ra sp gp tp t0-2 s0-1 a0-7 s2-11 t3-6). *)
Definition reg_names : list string :=
  ["zero"; "ra"; "sp"; "gp"; "tp"; "t0"; "t1"; "t2"; "s0"; "s1"; "a0"; "a1"; "a2"; "a3"; "a4"; "a5"; "a6"; "a7";
   "s2"; "s3"; "s4"; "s5"; "s6"; "s7"; "s8"; "s9"; "s10"; "s11"; "t3"; "t4"; "t5"; "t6"].
Fixpoint index (n : Z) (l : list string) (s : string) : option Z :=
  match l with [] => None | x :: r => if String.eqb x s then Some n else index (n + 1) r s end.
Definition register (s : string) : option Z := index 0 reg_names s.

(** ** Labels and instructions *)
Definition ends_in_colon (s : string) : option string :=
  match rev (list_ascii_of_string s) with
  | ":"%char :: r => Some (string_of_list_ascii (rev r))
  | _ => None
  end.
Definition fits12 (v : Z) : bool := (-2048 <=? v) && (v <? 2048).
(** Upper part of a 32-bit constant or offset split for lui/auipc and a signed 12-bit rest. *)
Definition hi20 (v : Z) : Z := (((v + 0x800) / 2 ^ 12) mod 2 ^ 20) * 2 ^ 12.
Definition lo12 (v : Z) : Z := sext 12 (v mod 2 ^ 12).
(** How many instructions a line makes. *)
Definition size (ws : list string) : Z :=
  match ws with
  | "li" :: _ :: v :: _ => match number v with Some z => if fits12 z then 1 else 2 | None => 0 end
  | "call" :: _ => 2
  | _ => 1
  end.
Fixpoint labels (pos : Z) (l : list (list string)) : list (string * Z) :=
  match l with
  | [] => []
  | [] :: r => labels pos r
  | (w :: args) :: r =>
    match ends_in_colon w, args with
    | Some n, [] => (n, pos) :: labels pos r
    | _, _ => labels (pos + 4 * size (w :: args)) r
    end
  end.
Fixpoint lookup (ls : list (string * Z)) (s : string) : option Z :=
  match ls with [] => None | (n, p) :: r => if String.eqb n s then Some p else lookup r s end.

Definition bind {A B} (o : option A) (f : A -> option B) : option B := match o with Some x => f x | None => None end.
Notation "'let?' x := o 'in' e" := (bind o (fun x => e)) (at level 200, x name, right associativity).

(** One line at byte address [pos]. *)
Definition line (ls : list (string * Z)) (pos : Z) (ws : list string) : option (list instr) :=
  let off s := option_map (fun p => p - pos) (lookup ls s) in
  match ws with
  | ["li"; d; v] => let? rd := register d in let? z := number v in
      if fits12 z then Some [OpImm ADD rd 0 z] else Some [Lui rd (hi20 z); OpImm ADD rd rd (lo12 z)]
  | ["lui"; d; v] => let? rd := register d in let? z := number v in Some [Lui rd (z * 2 ^ 12)]
  | ["addi"; d; s; v] => let? rd := register d in let? rs := register s in let? z := number v in
      if fits12 z then Some [OpImm ADD rd rs z] else None
  | ["mv"; d; s] => let? rd := register d in let? rs := register s in Some [OpImm ADD rd rs 0]
  | ["sub"; d; s; s'] => let? rd := register d in let? r1 := register s in let? r2 := register s' in Some [OpReg SUB rd r1 r2]
  | ["blt"; s; s'; l] => let? r1 := register s in let? r2 := register s' in let? o := off l in Some [Branch LT r1 r2 o]
  | ["bge"; s; s'; l] => let? r1 := register s in let? r2 := register s' in let? o := off l in Some [Branch GE r1 r2 o]
  | ["beqz"; s; l] => let? r1 := register s in let? o := off l in Some [Branch EQ r1 0 o]
  | ["bnez"; s; l] => let? r1 := register s in let? o := off l in Some [Branch NE r1 0 o]
  | ["j"; l] => let? o := off l in Some [Jal 0 o]
  | ["call"; l] => let? o := off l in Some [Auipc 1 (hi20 o); Jalr 1 1 (lo12 o)]
  | ["ret"] => Some [Jalr 0 1 0]
  | ["sw"; s; v; b] => let? r2 := register s in let? z := number v in let? r1 := register b in
      if fits12 z then Some [Store Word r1 r2 z] else None
  | _ => None
  end.
Fixpoint code (ls : list (string * Z)) (pos : Z) (l : list (list string)) : option (list instr) :=
  match l with
  | [] => Some []
  | [] :: r => code ls pos r
  | (w :: args) :: r =>
    match ends_in_colon w, args with
    | Some _, [] => code ls pos r
    | _, _ => let? i := line ls pos (w :: args) in let? k := code ls (pos + 4 * size (w :: args)) r in Some (i ++ k)
    end
  end.
(** [assemble] (attosoc.py:822); bronzebeard is external, only what the text above uses is modelled. *)
Definition assemble (text : string) : option (list instr) :=
  let l := lines (list_ascii_of_string text) false [] [] in code (labels 0 l) 0 l.

(** attosoc.py:949-984, 822 *)
Definition demo : list instr := Eval vm_compute in match assemble demo_text with Some l => l | None => [] end.
Lemma demo_assembles : assemble demo_text = Some demo. Proof. vm_compute. reflexivity. Qed.

(** ** Encoding *)
Definition f3_alu (f : alu_fn) : Z :=
  match f with ADD | SUB => 0 | SLL => 1 | SLT => 2 | SLTU => 3 | XOR => 4 | SRL | SRA => 5 | OR => 6 | AND => 7 end.
Definition f3_cmp (c : cmp_fn) : Z := match c with EQ => 0 | NE => 1 | LT => 4 | GE => 5 | LTU => 6 | GEU => 7 end.
Definition f3_w (w : width) : Z := match w with Byte => 0 | Half => 1 | Word => 2 end.
(** Standard RV32I encodings, as bronzebeard emits them (attosoc.py:822). *)
Definition encode (i : instr) : Z :=
  match i with
  | Lui rd imm => imm + rd * 2 ^ 7 + 0x37
  | Auipc rd imm => imm + rd * 2 ^ 7 + 0x17
  | Jal rd off => fld off 20 1 * 2 ^ 31 + fld off 1 10 * 2 ^ 21 + fld off 11 1 * 2 ^ 20 + fld off 12 8 * 2 ^ 12 + rd * 2 ^ 7 + 0x6f
  | Jalr rd rs1 off => fld off 0 12 * 2 ^ 20 + rs1 * 2 ^ 15 + rd * 2 ^ 7 + 0x67
  | Branch c rs1 rs2 off => fld off 12 1 * 2 ^ 31 + fld off 5 6 * 2 ^ 25 + rs2 * 2 ^ 20 + rs1 * 2 ^ 15 + f3_cmp c * 2 ^ 12 + fld off 1 4 * 2 ^ 8 + fld off 11 1 * 2 ^ 7 + 0x63
  | Store sz rs1 rs2 off => fld off 5 7 * 2 ^ 25 + rs2 * 2 ^ 20 + rs1 * 2 ^ 15 + f3_w sz * 2 ^ 12 + fld off 0 5 * 2 ^ 7 + 0x23
  | OpImm ADD rd rs1 imm => fld imm 0 12 * 2 ^ 20 + rs1 * 2 ^ 15 + rd * 2 ^ 7 + 0x13
  | OpReg f rd rs1 rs2 => (match f with SUB | SRA => 32 | _ => 0 end) * 2 ^ 25 + rs2 * 2 ^ 20 + rs1 * 2 ^ 15 + f3_alu f * 2 ^ 12 + rd * 2 ^ 7 + 0x33
  | _ => 0   (* not used by the demo *)
  end.
(** attosoc.py:823-825 *)
Definition demo_words : list Z := Eval vm_compute in map encode demo.
Lemma demo_words_decode : map decode demo_words = map Some demo. Proof. vm_compute. reflexivity. Qed.

(** * Cycle-timed reference machine

    The reference machine of Isa.v together with how many bus-idle cycles it needs
    before its next request.  Like Isa.v this does not mention the hardware model. *)
From Coq Require Import ZArith Bool List.
From Verif Require Import Isa.
Import ListNotations.
Open Scope Z_scope.

(** A delay: the number of bus-idle cycles after an acknowledged cycle, and whether
    the request that follows starts with a cycle in which the bus must not answer yet
    (the core overlaps that cycle with finishing the current instruction). *)
Definition delay := (nat * bool)%type.

(** Trap taken [n] cycles after the fetch was acknowledged. *)
Definition trap_delay (n : nat) : delay := ((n + 4)%nat, true).

Definition is_shift (f : alu_fn) : bool := match f with SLL | SRL | SRA => true | _ => false end.
Definition target_ok (x : Z) : bool := x mod 4 =? 0.

Definition jump_delay (target : Z) : delay := if target_ok target then (5%nat, true) else trap_delay 4.

Definition exec_delay (a : arch) (i : instr) : delay :=
  match i with
  | Lui _ _ => (2%nat, true)
  | Auipc _ _ => (4%nat, false)
  | Jal _ off => jump_delay ((pc a + off) mod 2 ^ 32)
  | Jalr _ rs1 off => jump_delay (2 * (((rd_x a rs1 + off) mod 2 ^ 32) / 2))
  | Branch c rs1 rs2 off =>
      if cmp c (rd_x a rs1) (rd_x a rs2) then
        if target_ok ((pc a + off) mod 2 ^ 32) then (6%nat, false) else trap_delay 5
      else (5%nat, false)
  | Load sz _ _ rs1 off =>
      if aligned sz ((rd_x a rs1 + off) mod 2 ^ 32) then (4%nat, false) else trap_delay 4
  | Store sz rs1 _ off =>
      if aligned sz ((rd_x a rs1 + off) mod 2 ^ 32) then (5%nat, false) else trap_delay 4
  | OpImm f _ _ n =>
      if is_shift f then if n =? 0 then (7%nat, false) else ((5 + 2 * Z.to_nat n)%nat, false)
      else (2%nat, true)
  | OpReg f _ _ rs2 =>
      if is_shift f then
        let n := rd_x a rs2 mod 32 in
        if n =? 0 then (8%nat, false) else ((5 + 2 * Z.to_nat n)%nat, false)
      else (2%nat, true)
  | Fence | Wfi => (2%nat, false)
  | Ecall | Ebreak => trap_delay 1
  | Mret => (5%nat, true)
  | Csr f rd g n =>
      match csr_read a false n with
      | None => trap_delay 2
      | Some _ =>
        if csr_writes f g && csr_read_only n then trap_delay 2
        else if ro_zero n then (4%nat, false)
        else match f with
             | CSRRW => if rd =? 0 then (4%nat, false) else (5%nat, false)
             | CSRRS => if csr_writes f g then (7%nat, false) else (5%nat, false)
             | CSRRC => if csr_writes f g then (8%nat, false) else (5%nat, false)
             end
      end
  end.

Definition fetch_delay (a : arch) (w : Z) (i1 i2 : bool) : delay :=
  if int_enabled a && i1 then trap_delay 1
  else match decode w with
       | None => trap_delay 1
       | Some i => if is_csr i && (int_enabled a && i2) then trap_delay 2 else exec_delay a i
       end.

(** Delay after the request of [m] is completed in cycle [t] with data [d]; after a
    load or store the bus is idle for one cycle. *)
Definition delay_after (irq : nat -> bool) (m : mach) (e : nat * Z) : delay :=
  let (t, d) := e in
  match m with
  | Fetching a => fetch_delay a d (irq (t + 1)%nat) (irq (t + 2)%nat)
  | Accessing _ _ => (1%nat, false)
  end.

(** Timed machine: idle cycles left, then (possibly after one unanswerable cycle) the
    request of [t_m] is on the bus until it is acknowledged. *)
Record tstate := { t_m : mach; t_idle : nat; t_early : bool }.
Definition t_cyc (s : tstate) : bool := match t_idle s with O => true | _ => false end.
Definition tnext (v : variant) (irq : nat -> bool) (t : nat) (s : tstate) (ack : bool) (d : Z) : tstate :=
  match t_idle s with
  | S n => {| t_m := t_m s; t_idle := n; t_early := t_early s |}
  | O => if t_early s then {| t_m := t_m s; t_idle := 0; t_early := false |}
         else if ack then
           {| t_m := complete v irq (t_m s) (t, d);
              t_idle := fst (delay_after irq (t_m s) (t, d));
              t_early := snd (delay_after irq (t_m s) (t, d)) |}
         else s
  end.

(** * Simulation relation and symbolic execution of microcode *)
From Coq Require Import ZArith Lia Bool List.
From Verif Require Import Bits Ucode Cpu Isa Timed BitLemmas Wf.
Import ListNotations.
Open Scope Z_scope.

(** One cycle without reset. *)
Definition mki (k : bool) (d : Z) (q : bool) : input := {| rst := false; ack := k; dat_r := d; irq := q |}.
Definition nst (s : state) (k : bool) (d : Z) (q : bool) : state := step s (mki k d q).

Lemma step_nst s i : rst i = false -> step s i = nst s (ack i) (dat_r i) (irq i).
Proof. intros H. destruct i as [r k d q]. cbn [rst] in H. subst r. exact eq_refl. Qed.

(** The architectural state [a] is what the core's registers hold: register RAM [m],
    program counter register [p], MSTATUS/MIE flip-flops and the interrupt latch. *)
Record relv (a : arch) (m : Z -> Z) (p : Z) (c1 c2 : bool) (c3 : Z) (c4 it : bool) : Prop := {
  r_x : forall r, 0 <= r < 32 -> rd_x a r = m r;
  r_pc : pc a = 4 * p;
  r_mie : mie a = c1;
  r_mpie : mpie a = c2;
  r_meie : meie a = c4;
  r_mpp : c3 = 3;
  r_mtvec : mtvec a = m 37;
  r_mscratch : mscratch a = m 40;
  r_mepc : mepc a = m 41;
  r_mcause : mcause a = m 42;
  r_int : took_int a = it }.
Definition rel (a : arch) (s : state) : Prop :=
  relv a (s_mem s) (s_pc s) (c_mie (s_csr s)) (c_mpie (s_csr s)) (c_mpp (s_csr s)) (c_meie (s_csr s)) (s_int s).

(** Microaddresses the assembly file defines (a word the assembler emits is never 0,
    see [rom_defined_ok] in AsmProofs.v), except [halt], [panic] and the
    NOT_IMPLEMENTED words (jumps to [panic]). *)
Definition rom_defined := Eval vm_compute in
  filter (fun k => negb (nth (Z.to_nat k) rom_words 0 =? 0)) (map Z.of_nat (seq 0 256)).
Definition jumps_to_panic (k : Z) : bool :=
  match u_jmp (rom k) with J_DIRECT => u_target (rom k) =? 255 | _ => false end.
Definition live_list := Eval vm_compute in
  filter (fun k => negb (k =? 254) && negb (k =? 255) && negb (jumps_to_panic k)) rom_defined.
Definition live (k : Z) : bool := existsb (Z.eqb k) live_list.

(** The core executes microinstruction [k], not blocked by a guard. *)
Definition at_ (k : Z) (s : state) : Prop :=
  s_u s = rom k /\ s_next s = k + 1 /\ s_mguard s = false /\ s_sguard s = false.

(** Decoder not in its second cycle. *)
Definition settled (s : state) : Prop := mp_fwd (s_map s) = false /\ ex_fwd (s_exc s) = false.

Definition fetch_wait (a : arch) (s : state) : Prop :=
  (at_ 0 s \/ at_ 181 s \/ at_ 182 s) /\ settled s /\ pc a = 4 * s_pc s /\
  forall k d q, rel a (nst s k d q).

Definition early_list : list Z := [0x53; 0x54; 0x55; 0x56; 0x57; 0x58; 0x9c; 0xb4; 0xd1; 0xd2; 0xd3; 0xd4; 0xd5; 0xd6; 0xd7; 0xf4; 0xfc].
Definition early_wait (a : arch) (s : state) : Prop :=
  (exists k, In k early_list /\ at_ k s) /\ pc a = 4 * s_pc s /\
  forall d q, fetch_wait a (nst s false d q).

Definition load_at (sz : width) (sgn : bool) : Z :=
  match sz, sgn with
  | Byte, true => 0x10 | Half, true => 0x14 | Word, _ => 0x18 | Byte, false => 0x1c | Half, false => 0x20
  end.
Definition store_at (sz : width) : Z := match sz with Byte => 0xa0 | Half => 0xa5 | Word => 0xaa end.

(** Waiting on the bus for the request of a machine state to be acknowledged. *)
Inductive waits : mach -> state -> Prop :=
| w_fetch a s : fetch_wait a s -> waits (Fetching a) s
| w_load sz sgn a rd ea s :
    at_ (load_at sz sgn) s -> settled s -> s_data_adr s = ea -> s_dst s = rd -> aligned sz ea = true ->
    rel (match sz with Byte => advance a | _ => a end) s ->
    waits (Accessing {| q_adr := ea / 4; q_sel := lanes sz ea; q_we := false; q_dat := 0 |}
                     (fun d => advance (wr_x a rd (load_value sz sgn ea d)))) s
| w_store sz a ea v s :
    at_ (store_at sz) s -> settled s -> s_data_adr s = ea -> s_wdata s = store_data sz ea v ->
    aligned sz ea = true -> rel (advance a) s ->
    waits (Accessing {| q_adr := ea / 4; q_sel := lanes sz ea; q_we := true; q_dat := store_data sz ea v |}
                     (fun _ => advance a)) s.

Definition ready (early : bool) (m : mach) (s : state) : Prop :=
  if early then exists a, m = Fetching a /\ early_wait a s else waits m s.

(** No bus activity. *)
Definition idle (s : state) : Prop := u_mreq (s_u s) = false /\ u_wmem (s_u s) = false /\ exists k, live k = true /\ at_ k s.

Inductive settles (inp : nat -> input) (P : state -> Prop) : nat -> nat -> state -> Prop :=
| settles_now t s : P s -> settles inp P 0 t s
| settles_later n t s : idle s ->
    settles inp P n (S t) (nst s (ack (inp t)) (dat_r (inp t)) (irq (inp t))) ->
    settles inp P (S n) t s.

(** ** Symbolic execution *)
Ltac isP p := match p with xH => idtac | xO ?q => isP q | xI ?q => isP q end.
Ltac isZ z := match z with Z0 => idtac | Zpos ?p => isP p | Zneg ?p => isP p end.
Ltac closedZ z :=
  match z with
  | Z.add ?a ?b => closedZ a; closedZ b
  | Z.mul ?a ?b => closedZ a; closedZ b
  | Z.pow ?a ?b => closedZ a; closedZ b
  | Z.modulo ?a ?b => closedZ a; closedZ b
  | bits ?a ?b ?c => closedZ a; closedZ b; closedZ c
  | _ => isZ z
  end.
Ltac vmchange t := let v := eval vm_compute in t in change t with v.
Ltac norm1 :=
  match goal with
  | |- context[Z.eqb ?a ?b] => closedZ a; closedZ b; vmchange (Z.eqb a b)
  | |- context[Z.modulo ?a (2 ^ 8)] => closedZ a; vmchange (Z.modulo a (2 ^ 8))
  | |- context[bits ?a ?b ?c] => closedZ a; closedZ b; closedZ c; vmchange (bits a b c)
  | |- context[rom ?k] => closedZ k; vmchange (rom k)
  | |- context[2 ^ 5 + ?b] => closedZ b; vmchange (2 ^ 5 + b)
  end.
Ltac unf :=
  cbv beta iota zeta delta [nst mki step reset_regs rst ack dat_r irq do_decode exc_now test_now seq_now
    exception_of test_of seq_adr csr_adr rf_wen rf_waddr rf_wdata rf_ren rf_raddr rf_mem_next rf_rdata_next
    reg_r_adr reg_w_adr allow_zero_wr csr_is_read csr_is_write
    asrc_next bsrc_next imm_next map_next exc_next pc_next csr_next cause_next int_next
    s_data_adr s_wdata s_mguard s_alu s_a s_b s_next s_sguard s_u s_src_a s_src_b s_dst s_imm
    s_attr s_map s_exc s_pc s_mem s_rdata s_csr s_cause s_int
    u_target u_jmp u_cond u_inv u_pc u_latch_a u_latch_b u_a u_b u_op u_imod u_omod u_rread u_rwrite u_rsel u_wsel
    u_csr u_csel u_mreq u_msel u_mext u_ladr u_ldata u_wmem u_fetch u_exc
    mp_src_a mp_dst mp_fwd mp_op mp_req mp_enc ex_src_a ex_fwd ex_quad ex_op ex_ro ex_valid ex_type
    c_mie c_mpie c_mpp c_meie c_buf c_prev ill ro0
    andb orb negb b2z CSR_MSTATUS CSR_MIE CSR_MTVEC CSR_MSCRATCH CSR_MEPC CSR_MCAUSE CSR_MIP
    alu_next alu_mod alu_omod_f alu_mux
    csr_dat_r csr_dat_w mcause_now].
Ltac norm := repeat (norm1; unf).


(** Split a state into its registers. *)
Ltac explode s :=
  destruct s as [da wd mg al ra rb nx sg u sa sb ds im at' [m1 m2 m3 m4 m5 m6] [e1 e2 e3 e4 e5 e6 e7]
                 pc' m rdt [c1 c2 c3 c4 c5 c6] cau int].
Ltac proj :=
  cbn [s_data_adr s_wdata s_mguard s_alu s_a s_b s_next s_sguard s_u s_src_a s_src_b s_dst s_imm
    s_attr s_map s_exc s_pc s_mem s_rdata s_csr s_cause s_int mp_src_a mp_dst mp_fwd mp_op mp_req mp_enc
    ex_src_a ex_fwd ex_quad ex_op ex_ro ex_valid ex_type c_mie c_mpie c_mpp c_meie c_buf c_prev] in *.
Ltac at_tac :=
  match goal with
  | |- exists k, live k = true /\ at_ k (Build_state _ _ _ _ _ _ ?n _ _ _ _ _ _ _ _ _ _ _ _ _ _ _) =>
      let k := eval vm_compute in (n - 1) in exists k; split; [vm_compute; reflexivity|repeat split]
  end.
Ltac idle_tac := split; [reflexivity|split; [reflexivity|at_tac]].

(** Execute one idle microinstruction. *)
Ltac stp_inputs :=
  match goal with |- settles ?inp _ _ _ (nst _ (ack (?inp ?t)) (dat_r (?inp ?t)) (irq (?inp ?t))) =>
    let k := fresh "k" in let d := fresh "d" in let q := fresh "q" in
    generalize (ack (inp t)) as k; generalize (dat_r (inp t)) as d; generalize (irq (inp t)) as q; intros q d k
  end.
Ltac stp := apply settles_later; [idle_tac|stp_inputs; unf; norm].

(** ** How architectural updates act on the relation *)
Lemma relv_advance a m p c1 c2 c3 c4 it : 0 <= p < 2 ^ 30 ->
  relv a m p c1 c2 c3 c4 it -> relv (advance a) m ((p + 1) mod 2 ^ 30) c1 c2 c3 c4 it.
Proof.
  intros Hp R. destruct R. constructor; try assumption.
  unfold advance, next_pc, set_pc; cbn [pc]. rewrite r_pc0.
  replace (4 * p + 4) with (4 * (p + 1)) by lia. change (2 ^ 32) with (4 * 2 ^ 30).
  apply Z.mul_mod_distr_l; lia.
Qed.

Lemma advance_wr a r v : advance (wr_x a r v) = wr_x (advance a) r v.
Proof. unfold wr_x. destruct (r =? 0); reflexivity. Qed.

Lemma relv_set_pc a m p p' x c1 c2 c3 c4 it : x = 4 * p' ->
  relv a m p c1 c2 c3 c4 it -> relv (set_pc a x) m p' c1 c2 c3 c4 it.
Proof. intros Hp R. destruct R. constructor; assumption. Qed.

Lemma relv_wr a m p c1 c2 c3 c4 it r v : 0 <= r < 32 -> relv a m p c1 c2 c3 c4 it ->
  relv (wr_x a r v) (if (if r =? 0 then false else true) then upd m r v else m) p c1 c2 c3 c4 it.
Proof.
  intros Hr R. unfold wr_x. destruct (Z.eqb_spec r 0); [assumption|].
  destruct R. unfold upd.
  constructor; cbn [set_x xr pc mie mpie meie mtvec mscratch mepc mcause took_int]; try assumption.
  - intros n' Hn'. unfold rd_x, set_x; cbn [xr]. specialize (r_x0 n' Hn'). unfold rd_x in r_x0.
    destruct (Z.eqb_spec n' 0) as [E|E].
    + rewrite <- r_x0. destruct (Z.eqb_spec n' r); [lia|reflexivity].
    + rewrite <- r_x0. reflexivity.
  - destruct (Z.eqb_spec 37 r); [lia|assumption].
  - destruct (Z.eqb_spec 40 r); [lia|assumption].
  - destruct (Z.eqb_spec 41 r); [lia|assumption].
  - destruct (Z.eqb_spec 42 r); [lia|assumption].
Qed.

(** Fast epilogue: the result in the ALU is written to rd while the next fetch starts. *)
Lemma fast_epilog_wait a s : at_ 181 s -> settled s -> 0 <= s_dst s < 32 -> rel a s ->
  fetch_wait (wr_x a (s_dst s) (s_alu s)) s.
Proof.
  intros A B Hd R. split; [tauto|]. split; [exact B|]. split.
  { transitivity (pc a); [unfold wr_x; destruct (_ =? 0); reflexivity|apply R]. }
  intros k d q. destruct A as (A1&A2&A3&A4), B as [B1 B2].
  explode s. unfold rel in *. proj. subst.
  vmchange (rom 181). unf. norm.
  apply relv_wr; assumption.
Qed.

Lemma fetch0_wait a s : at_ 0 s -> settled s -> rel a s -> fetch_wait a s.
Proof.
  intros A B R. split; [tauto|]. split; [exact B|]. split; [apply R|].
  intros k d q. destruct A as (A1&A2&A3&A4), B as [B1 B2].
  explode s. unfold rel in *. proj. subst.
  vmchange (rom 0). unf. norm. assumption.
Qed.

(** Early fetch: the ALU computes the result while the next fetch is already on the bus. *)
Definition alu_early : list Z := [0x53; 0x54; 0x55; 0x56; 0x57; 0x58; 0x9c; 0xb4; 0xd1; 0xd2; 0xd3; 0xd4; 0xd5; 0xd6; 0xd7].
Lemma alu_early_wait a k s v : In k alu_early -> at_ k s -> settled s -> 0 <= s_dst s < 32 -> rel a s ->
  alu_next (rom k) (s_a s) (s_b s) = v ->
  early_wait (wr_x a (s_dst s) v) s.
Proof.
  intros K A B Hd R V. split.
  { exists k. split; [|exact A]. unfold early_list, alu_early in *. cbn in *. tauto. }
  split.
  { transitivity (pc a); [unfold wr_x; destruct (_ =? 0); reflexivity|apply R]. }
  intros d q. subst v.
  destruct A as (A1&A2&A3&A4), B as [B1 B2].
  explode s. unfold rel in R. proj. subst.
  unfold alu_early in K. cbn [In] in K.
  repeat (destruct K as [<-|K];
    [match goal with |- context[rom ?k] => vmchange (rom k) end; unf; norm;
     match goal with |- fetch_wait (wr_x a ds ?v) ?s' => apply (fast_epilog_wait a s') end;
       [repeat split|repeat split|exact Hd|exact R]|]).
  contradiction.
Qed.

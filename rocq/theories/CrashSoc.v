(** * C84: what a reset in the middle of everything leaves in the registers of the whole SoC *)
From Coq Require Import ZArith Lia Bool List.
From Verif Require Import Bits Ucode Cpu Isa Timed BitLemmas Wf Sym Blocks CsrBlocks DecodeOk Boundary Sim Main Obs PropsBus PropsInv Observe PropsIsa Latency PropsFrame InputsMatter Memory SocMem Crash RegRam Uart Periph Soc SocIo IoMem CsrBus CsrSoc CsrIoMem LatencySoc CrashReg.
Import ListNotations.
Open Scope Z_scope.

(** ** Specification *)
(** Registers [x] and RAM [m] are what the machine with devices [am] has after [n] instructions; or the next instruction is a shift, not preempted
    by an interrupt, and its destination has been shifted by part of the amount. *)
Inductive io_stopped (ram : Z -> bool) (phys : Z -> Z) (ev : nat -> event) (am : arch * (Z -> Z)) (n : nat) (x m : Z -> Z) : Prop :=
| io_whole a m1 : io_run ram phys ev n am = (a, m1) -> (forall r, 1 <= r < 32 -> x r = rd_x a r) -> (forall z, m z = m1 z) -> io_stopped ram phys ev am n x m
| io_part a m1 i f rd rs1 amount j : io_run ram phys ev n am = (a, m1) -> int_enabled a && e_int (ev n) 1%nat = false ->
    decode (if ram (pc a / 4) then peek phys m1 (pc a) 4 else e_code (ev n)) = Some i -> shift_insn a i = Some (f, rd, rs1, amount) -> 1 <= j < amount ->
    (forall r, 1 <= r < 32 -> x r = if r =? rd then alu f (rd_x a rs1) j else rd_x a r) -> (forall z, m z = m1 z) -> io_stopped ram phys ev am n x m.
(** The machine [am], stopped after [n] instructions, its two CSRs after [q]. *)
Definition io_left (ram : Z -> bool) (phys : Z -> Z) (ev : nat -> event) (am : arch * (Z -> Z)) (n q : nat) (l : remains) : Prop :=
  io_stopped ram phys ev am n (l_x l) (l_mem l) /\ l_mtvec l = mtvec (fst (io_run ram phys ev q am)) /\ l_mscratch l = mscratch (fst (io_run ram phys ev q am)).
(** [r] resets after the machine started from [a] and [m]: each life starts at address 0 with interrupts disabled and with what the life before left. *)
Inductive io_history (ram : Z -> bool) (phys : Z -> Z) (a : arch) (m : Z -> Z) : nat -> remains -> Prop :=
| io_one_life ev n q l : adjacent_to n q -> io_left ram phys ev (a, m) n q l -> io_history ram phys a m O l
| io_another r l a' ev n q l' : io_history ram phys a m r l -> booted a' ->
    (forall x, 1 <= x < 32 -> rd_x a' x = l_x l x) -> mtvec a' = l_mtvec l -> mscratch a' = l_mscratch l ->
    adjacent_to n q -> io_left ram phys ev (a', l_mem l) n q l' -> io_history ram phys a m (S r) l'.

(** ** Proofs *)
Lemma io_either (ram : Z -> bool) phys a m e : let am := io_step ram phys (a, m) e in (forall z, snd am z = m z) \/ (forall r, rd_x (fst am) r = rd_x a r).
Proof.
  cbv zeta. unfold io_step. set (w := if ram (pc a / 4) then peek phys m (pc a) 4 else e_code e). destruct (int_enabled a && _); [left; intros; reflexivity|].
  destruct (decode w) as [i|]; [|left; intros; reflexivity]. destruct (is_csr i && _); [left; intros; reflexivity|].
  destruct i; try (left; intros; destruct (exec _ _ _ _); reflexivity).
  - left. intros. cbv zeta. destruct (aligned _ _); reflexivity.
  - right. intros r. cbv zeta. destruct (aligned _ _); reflexivity.
Qed.
Lemma io_shift_mem (ram : Z -> bool) phys a m e i x : int_enabled a && e_int e 1%nat = false -> decode (if ram (pc a / 4) then peek phys m (pc a) 4 else e_code e) = Some i -> shift_insn a i = Some x -> snd (io_step ram phys (a, m) e) = m.
Proof.
  intros I D Sh. unfold io_step. rewrite I, D. destruct i; try discriminate Sh; cbn [is_csr andb]; destruct (exec _ _ _ _); reflexivity.
Qed.

(** A run that is like another one up to cycle [T] and in which every later request is answered. *)
Section Ext.
Variables (ram : Z -> bool) (phys : Z -> Z) (s : state) (inp : nat -> input) (m0 : Z -> Z) (T : nat).
Hypotheses (K : bus_ok s inp) (Sl : ram_slave ram phys s inp m0) (Hb : forall z, 0 <= m0 z < 256).
Definition xin (n : nat) (y : state * bool * (Z -> Z)) : input :=
  let '(x, c, m) := y in
  {| rst := false; ack := o_cyc x && c; dat_r := let z := 4 * phys (o_adr x) in m (z + 0) + 2 ^ 8 * m (z + 1) + 2 ^ 16 * m (z + 2) + 2 ^ 24 * m (z + 3); irq := irq (inp (S T + n)%nat) |}.
Fixpoint xt (n : nat) : state * bool * (Z -> Z) :=
  match n with
  | O => (run s inp (S T), o_cyc (run s inp T), ram_mem ram phys s inp m0 (S T))
  | S n => let '(x, c, m) := xt n in (step x (xin n (x, c, m)), o_cyc x,
      fun z => if o_cyc x && (o_cyc x && c) && o_we x && ram (o_adr x) && (z / 4 =? phys (o_adr x)) && Z.testbit (o_sel x) (z mod 4) then byte (o_dat_w x) (z mod 4) else m z)
  end.
Definition inp' (u : nat) : input := if (u <=? T)%nat then inp u else xin (u - S T) (xt (u - S T)).
Lemma inp'_old u : (u <= T)%nat -> inp' u = inp u. Proof. intros H. unfold inp'. rewrite (proj2 (Nat.leb_le _ _) H). reflexivity. Qed.
Lemma inp'_new n : inp' (S T + n) = xin n (xt n).
Proof. unfold inp'. rewrite (proj2 (Nat.leb_gt _ _)) by lia. replace (S T + n - S T)%nat with n by lia. reflexivity. Qed.
Lemma run_old u : (u <= S T)%nat -> run s inp' u = run s inp u.
Proof. induction u as [|u IH]; intros H; [reflexivity|]. cbn [run]. rewrite IH by lia. rewrite inp'_old by lia. reflexivity. Qed.
Lemma run_new n : run s inp' (S T + n) = fst (fst (xt n)).
Proof.
  induction n as [|n IH]; [rewrite Nat.add_0_r; apply run_old; lia|]. rewrite Nat.add_succ_r. cbn [run xt]. rewrite IH. rewrite inp'_new. destruct (xt n) as [[x c] m]. reflexivity.
Qed.
Lemma cyc_new n : snd (fst (xt n)) = o_cyc (run s inp' (T + n)).
Proof.
  destruct n as [|n]; [rewrite Nat.add_0_r, run_old by lia; reflexivity|]. rewrite Nat.add_succ_r, <- Nat.add_succ_l, run_new. cbn [xt]. destruct (xt n) as [[x c] m]. reflexivity.
Qed.
Lemma irq_same u : irq (inp' u) = irq (inp u).
Proof. destruct (Nat.le_gt_cases u T) as [L|L]; [rewrite inp'_old by exact L; reflexivity|]. replace u with (S T + (u - S T))%nat by lia. rewrite inp'_new. destruct (xt _) as [[x c] m]. reflexivity. Qed.
Lemma ack_new u : (T < u)%nat -> ack (inp' u) = o_cyc (run s inp' u) && o_cyc (run s inp' (u - 1)).
Proof.
  intros L. replace u with (S T + (u - S T))%nat at 1 2 by lia. rewrite inp'_new, run_new. replace (u - 1)%nat with (T + (u - S T))%nat by lia. rewrite <- cyc_new. destruct (xt _) as [[x c] m]. reflexivity.
Qed.
Lemma ram_old u : (u <= S T)%nat -> forall z, ram_mem ram phys s inp' m0 u z = ram_mem ram phys s inp m0 u z.
Proof. induction u as [|u IH]; intros H z; [reflexivity|]. cbn [ram_mem]. cbv zeta. rewrite IH by lia. rewrite run_old, inp'_old by lia. reflexivity. Qed.
Lemma ram_new n z : snd (xt n) z = ram_mem ram phys s inp' m0 (S T + n) z.
Proof.
  induction n as [|n IH]; [rewrite Nat.add_0_r, ram_old by lia; reflexivity|]. rewrite Nat.add_succ_r. cbn [ram_mem]. cbv zeta. rewrite <- IH, run_new, inp'_new.
  cbn [xt]. destruct (xt n) as [[x c] m]. reflexivity.
Qed.
Lemma ram_range inq u z : 0 <= ram_mem ram phys s inq m0 u z < 256.
Proof. induction u as [|u IH]; [apply Hb|]. cbn [ram_mem]. cbv zeta. destruct (_ && _); [apply b8|exact IH]. Qed.
Lemma env' : env inp'.
Proof.
  constructor; intros u.
  - destruct (Nat.le_gt_cases u T) as [L|L]; [rewrite inp'_old by exact L; apply K|]. replace u with (S T + (u - S T))%nat by lia. rewrite inp'_new. destruct (xt _) as [[x c] m]. reflexivity.
  - destruct (Nat.le_gt_cases u T) as [L|L]; [rewrite inp'_old by exact L; apply K|]. replace u with (S T + (u - S T))%nat by lia. rewrite inp'_new. pose proof (fun z => ram_new (u - S T) z) as R. destruct (xt _) as [[x c] m].
    cbn [xin dat_r snd] in *. cbv zeta. set (z := 4 * phys (o_adr x)). rewrite !R. pose proof (ram_range inp' (S T + (u - S T)) (z + 0)). pose proof (ram_range inp' (S T + (u - S T)) (z + 1)).
    pose proof (ram_range inp' (S T + (u - S T)) (z + 2)). pose proof (ram_range inp' (S T + (u - S T)) (z + 3)). unfold word. lia.
Qed.
Lemma ok_ext : ok s inp'.
Proof.
  apply bus_ok_ok. constructor; [apply K|apply env'|]. intros u C A. destruct (Nat.le_gt_cases u T) as [L|L].
  - rewrite run_old in C by lia. rewrite inp'_old in A by exact L. destruct (ok_ack _ _ K u C A) as (v & -> & Cv). exists v. split; [reflexivity|]. rewrite run_old by lia. exact Cv.
  - rewrite ack_new in A by exact L. apply andb_prop in A. exists (u - 1)%nat. split; [lia|]. apply A.
Qed.
Lemma slave_ext : ram_slave ram phys s inp' m0.
Proof.
  intros u x C A We Rm i Hi. unfold x in *. clear x. destruct (Nat.le_gt_cases u T) as [L|L].
  - rewrite ram_old by lia. rewrite run_old in * by lia. rewrite inp'_old in * by exact L. apply (Sl u); assumption.
  - replace u with (S T + (u - S T))%nat by lia. rewrite inp'_new, run_new. pose proof (fun z => ram_new (u - S T) z) as R. destruct (xt _) as [[y c] m]. cbn [xin dat_r fst snd] in *. cbv zeta.
    set (z := 4 * phys (o_adr y)). rewrite <- R. rewrite word4; try exact Hi; try (rewrite R; apply ram_range). assert (i = 0 \/ i = 1 \/ i = 2 \/ i = 3) as [Hi'|[Hi'|[Hi'|Hi']]] by lia; rewrite Hi'; reflexivity.
Qed.
Lemma answers_ext : answers_within (S (S T)) s inp'.
Proof.
  intros u [C S0]. destruct (Nat.le_gt_cases u T) as [L|L].
  - (* held until cycle T + 1, or answered before *)
    assert (H : forall n, (u + n <= S T)%nat -> (exists j, (j < n)%nat /\ ack (inp' (u + j)%nat) = true) \/ o_cyc (run s inp' (u + n)) = true).
    { induction n as [|n IH]; intros Hn; [right; rewrite Nat.add_0_r; exact C|]. destruct (IH ltac:(lia)) as [(j & Hj & Aj)|Cn]; [left; exists j; split; [lia|exact Aj]|].
      destruct (ack (inp' (u + n)%nat)) eqn:An; [left; exists n; split; [lia|exact An]|right]. rewrite Nat.add_succ_r. apply (C05_request_held s inp' ok_ext _ Cn An). }
    destruct (H (S T - u)%nat ltac:(lia)) as [(j & Hj & Aj)|C1]; [exists j; split; [lia|exact Aj]|]. destruct (H (T - u)%nat ltac:(lia)) as [(j & Hj & Aj)|C0]; [exists j; split; [lia|exact Aj]|].
    exists (S T - u)%nat. split; [lia|]. replace (u + (S T - u))%nat with (S T) in * by lia. rewrite ack_new by lia. replace (S T - 1)%nat with (u + (T - u))%nat by lia. rewrite C0, C1. reflexivity.
  - exists 1%nat. split; [lia|]. rewrite ack_new by lia. replace (u + 1 - 1)%nat with u by lia. rewrite C, Nat.add_1_r.
    assert (A : ack (inp' u) = false). { rewrite ack_new by exact L. destruct u as [|u]; [lia|]. replace (S u - 1)%nat with u by lia. rewrite S0. apply andb_false_r. }
    destruct (C05_request_held s inp' ok_ext u C A) as (H & _). rewrite H. reflexivity.
Qed.
End Ext.


Lemma fb_ext s inp inq t : (forall u, (u < t)%nat -> run s inp u = run s inq u /\ ack (inp u) = ack (inq u)) -> fetched_before s inp t = fetched_before s inq t.
Proof.
  induction t as [|t IH]; intros H; [reflexivity|]. unfold fetched_before in *. rewrite !count_S. destruct (H t ltac:(lia)) as [-> ->]. rewrite IH by (intros; apply H; lia). reflexivity.
Qed.
Section Life.
Variables (ram : Z -> bool) (phys : Z -> Z) (s : state) (inp : nat -> input) (m0 : Z -> Z).
Hypotheses (K : ok s inp) (Sl : ram_slave ram phys s inp m0).
Local Notation st := (run s inp).
Local Notation fetch t := (o_cyc (st t) && ack (inp t) && u_fetch (s_u (st t))).
Local Notation fb := (fetched_before s inp).
Local Notation io ev n := (io_run ram phys ev n (boot_arch s, m0)).
Local Notation rm := (ram_mem ram phys s inp m0).

Lemma io_fb t : fb (S t) = (fb t + if fetch t then 1 else 0)%nat.
Proof. unfold fetched_before. apply count_S. Qed.
Lemma io_since u n : (forall x, (u <= x < u + n)%nat -> fetch x = false) -> fb (u + n) = fb u.
Proof.
  induction n as [|n IH]; intros N; [rewrite Nat.add_0_r; auto|]. rewrite Nat.add_succ_r, io_fb. rewrite N by lia. rewrite Nat.add_0_r. apply IH. intros; apply N; lia.
Qed.
Lemma mem_now ev t : io_tracks ram phys s inp m0 ev t -> io_tracks ram phys s inp m0 ev (S t) ->
  (forall z, rm (S t) z = snd (io ev (fb t)) z) \/ (exists n, fb t = S n /\ forall z, rm (S t) z = snd (io ev n) z).
Proof.
  intros H0 H1. pose proof (io_fb t) as Fb. destruct (fetch t) eqn:F.
  - destruct (fetch_dec s inp t) as [[w Fd]|]; [|congruence]. destruct (fetch_machine s inp K t w Fd) as [a M]. pose proof Fd as (C & _).
    unfold io_tracks in H0. rewrite M in H0. left. intros z. rewrite (proj2 H0). cbn [ram_mem]. cbv zeta.
    pose proof (bus_shows s inp K t C) as Sh. rewrite M in Sh. destruct Sh. rewrite sh_we. cbn [request q_we]. rewrite andb_false_r. reflexivity.
  - rewrite Nat.add_0_r in Fb. unfold io_tracks in H1. rewrite Fb in H1. destruct (machine s inp (S t)) as [a|r k].
    + left. intros z. symmetry. apply H1.
    + right. destruct H1 as (n & En & _ & Hm & _). exists n. split; [exact En|]. intros z. symmetry. apply Hm.
Qed.
Lemma io_words ev t w : fetch_done s inp t w -> io_tracks ram phys s inp m0 ev t -> exists a, machine s inp t = Fetching a /\ fst (io ev (fb t)) = a /\ (forall z, snd (io ev (fb t)) z = rm t z) /\
  (forall r, gp r -> s_mem (st (S t)) r = rd_x a r) /\ s_mem (st (S t)) 37 = mtvec a /\ s_mem (st (S t)) 40 = mscratch a.
Proof.
  intros Fd Tr. unfold io_tracks in Tr. destruct (fetch_machine s inp K t w Fd) as [a M]. rewrite M in Tr. pose proof Fd as (C & U & A & Dw).
  pose proof (b_rel _ _ _ (fetch_boundary s inp K t a C A M)) as R. exists a. split; [exact M|]. split; [apply Tr|]. split; [apply Tr|]. split; [|split].
  - intros r G. unfold gp in G. symmetry. apply (r_x _ _ _ _ _ _ _ _ R). lia.
  - symmetry. apply (r_mtvec _ _ _ _ _ _ _ _ R).
  - symmetry. apply (r_mscratch _ _ _ _ _ _ _ _ R).
Qed.
(** If the bus answers everything. *)
Lemma io_every_answered W t : answers_within W s inp -> (1 <= t)%nat -> exists ev n q, (fb t = n \/ fb t = S n) /\ (fb t = q \/ fb t = S q) /\ happened s inp ev (S t) /\
  io_left ram phys ev (boot_arch s, m0) n q {| l_x := s_mem (st t); l_mem := rm (S t); l_mtvec := s_mem (st t) 37; l_mscratch := s_mem (st t) 40 |}.
Proof.
  intros Aw Ht. destruct (last_fetch s inp t) as [N|(t0 & L0 & Ft & N)].
  - (* not yet fetched anything *)
    pose proof (io_since 0 t ltac:(intros; apply N; lia)) as Eb. change (0 + t)%nat with t in Eb. change (fb 0) with O in Eb.
    destruct (io_tracks_past ram phys s inp m0 K Sl (S t)) as (ev & Hh & Tr).
    exists ev, O, O. split; [left; exact Eb|]. split; [left; exact Eb|]. split; [exact Hh|]. destruct (boot_words s inp K t Ht N) as (B1 & B2 & B3). split; [|split; cbn [l_mtvec l_mscratch io_run fst]; assumption].
    eapply io_whole; [reflexivity|exact B1|]. cbn [l_mem]. destruct (mem_now ev t (Tr t ltac:(lia)) (Tr (S t) (le_n _))) as [P|(n & En & _)]; [|lia].
    intros z. rewrite P, Eb. reflexivity.
  - assert (Fd0 : fetch_done s inp t0 (dat_r (inp t0))). { destruct (fetch_dec s inp t0) as [[w Fw]|]; [|congruence]. pose proof Fw as (_ & _ & _ & <-). exact Fw. }
    destruct (next_fetch s inp W K Aw t0 _ Fd0) as (t1 & Ex & _).
    assert (L1 : (t <= t1)%nat). { destruct Ex as (_ & L & (w1 & F1) & _). destruct (Nat.le_gt_cases t t1) as [|G]; [assumption|]. apply fetch_true in F1. rewrite N in F1 by lia. discriminate F1. }
    pose proof Ex as (_ & Lt & (w1 & Fd1) & Nx).
    destruct (io_tracks_past ram phys s inp m0 K Sl (S t1)) as (ev & Hh & Tr).
    destruct (io_words ev t0 _ Fd0 (Tr t0 ltac:(lia))) as (A & M0 & H0 & Z0 & X0 & V0 & S0). destruct (io_words ev t1 w1 Fd1 (Tr t1 ltac:(lia))) as (B & _ & H1 & _ & X1 & V1 & S1).
    assert (Eb1 : fb t1 = S (fb t0)).
    { pose proof (io_since (S t0) (t1 - S t0)) as E. replace (S t0 + (t1 - S t0))%nat with t1 in E by lia. rewrite E, io_fb, Ft; [lia|]. intros x Hx. destruct (fetch_dec s inp x) as [[w Fw]|]; [|assumption]. exfalso. apply (Nx x w ltac:(lia) Fw). }
    assert (Eb : fb t = S (fb t0)).
    { pose proof (io_since (S t0) (t - S t0)) as E. replace (S t0 + (t - S t0))%nat with t in E by lia. rewrite E, io_fb, Ft; [lia|]. intros x Hx. apply N. lia. }
    rewrite Eb1 in H1. set (m1 := snd (io ev (fb t0))) in *. set (m2 := snd (io ev (S (fb t0)))).
    assert (E0 : io ev (fb t0) = (A, m1)) by (rewrite <- H0; apply surjective_pairing).
    assert (E1 : io ev (S (fb t0)) = (B, m2)) by (rewrite <- H1; apply surjective_pairing).
    assert (E2 : io_step ram phys (A, m1) (ev (fb t0)) = (B, m2)) by (rewrite <- E0; exact E1).
    assert (Ei : (forall z, m2 z = m1 z) \/ (forall r, rd_x B r = rd_x A r)) by (pose proof (io_either ram phys A m1 (ev (fb t0))) as E; rewrite E2 in E; exact E).
    assert (Mm : (forall z, rm (S t) z = m1 z) \/ (forall z, rm (S t) z = m2 z)).
    { destruct (mem_now ev t (Tr t ltac:(lia)) (Tr (S t) ltac:(lia))) as [P|(n & En & P)]; [right; rewrite Eb in P; exact P|left]. replace n with (fb t0) in P by lia. exact P. }
    assert (Cs : exists q, (fb t = q \/ fb t = S q) /\ s_mem (st t) 37 = mtvec (fst (io ev q)) /\ s_mem (st t) 40 = mscratch (fst (io ev q))).
    { destruct (csr_once s inp K t0 t1 _ Ex t ltac:(lia)) as [E|E].
      - exists (fb t0). split; [lia|]. rewrite E0, (E 37 (or_introl eq_refl)), (E 40 (or_intror eq_refl)). split; assumption.
      - exists (S (fb t0)). split; [lia|]. rewrite E1, (E 37 (or_introl eq_refl)), (E 40 (or_intror eq_refl)). split; assumption. }
    destruct Cs as (q & Hq & Cq). exists ev.
    assert (Gs : exists n, (fb t = n \/ fb t = S n) /\ io_stopped ram phys ev (boot_arch s, m0) n (s_mem (st t)) (rm (S t))).
    { destruct (gp_instruction s inp K t0 t1 _ A Ex M0 t ltac:(lia)) as [E|[E|(I1 & i & f & rd & rs1 & n & j & D & Sh & Hj & E)]].
      - assert (Xt : forall r, 1 <= r < 32 -> s_mem (st t) r = rd_x A r) by (intros r G; rewrite (E r G); apply X0; exact G).
        destruct Mm as [Mm|Mm]; [exists (fb t0); split; [lia|]; eapply io_whole; [exact E0|exact Xt|exact Mm]|].
        destruct Ei as [Ei|Ei]; [exists (fb t0); split; [lia|]; eapply io_whole; [exact E0|exact Xt|intros z; rewrite Mm; apply Ei]|].
        exists (S (fb t0)). split; [lia|]. eapply io_whole; [exact E1|intros r G; rewrite Ei; apply Xt; exact G|exact Mm].
      - assert (Xt : forall r, 1 <= r < 32 -> s_mem (st t) r = rd_x B r) by (intros r G; rewrite (E r G); apply X1; exact G).
        destruct Mm as [Mm|Mm]; [|exists (S (fb t0)); split; [lia|]; eapply io_whole; [exact E1|exact Xt|exact Mm]].
        destruct Ei as [Ei|Ei]; [exists (S (fb t0)); split; [lia|]; eapply io_whole; [exact E1|exact Xt|intros z; rewrite Mm; symmetry; apply Ei]|].
        exists (fb t0). split; [lia|]. eapply io_whole; [exact E0|intros r G; rewrite <- Ei; apply Xt; exact G|exact Mm].
      - exists (fb t0). split; [lia|]. pose proof Fd0 as (C0 & U0 & A0 & _). pose proof (Hh t0 ltac:(lia) C0 A0) as Hv. rewrite U0 in Hv. destruct Hv as [Hc Hi].
        assert (Dw : decode (if ram (pc A / 4) then peek phys m1 (pc A) 4 else e_code (ev (fb t0))) = Some i).
        { rewrite Hc, <- (code_word ram phys s inp m0 K Sl t0 A m1 C0 A0 M0 Z0). exact D. }
        assert (Ie : int_enabled A && e_int (ev (fb t0)) 1%nat = false) by (rewrite Hi, Nat.add_1_r; exact I1).
        assert (Sm : forall z, rm (S t) z = m1 z).
        { destruct Mm as [Mm|Mm]; [exact Mm|]. intros z. rewrite Mm. pose proof (io_shift_mem ram phys A m1 (ev (fb t0)) i _ Ie Dw Sh) as E3. rewrite E2 in E3. cbn [snd] in E3. rewrite E3. reflexivity. }
        eapply io_part; [exact E0|exact Ie|exact Dw|exact Sh|exact Hj| |exact Sm].
        intros r G. rewrite (E r G). destruct (r =? rd); [reflexivity|]. apply X0; exact G. }
    destruct Gs as (n & Hn & Gs). exists n, q. split; [exact Hn|]. split; [exact Hq|]. split; [intros u Hu; apply Hh; lia|]. split; [exact Gs|exact Cq].
Qed.
End Life.

Theorem io_every ram phys s inp m0 t : bus_ok s inp -> ram_slave ram phys s inp m0 -> (forall z, 0 <= m0 z < 256) -> (1 <= t)%nat ->
  exists ev n q, (fetched_before s inp t = n \/ fetched_before s inp t = S n) /\ (fetched_before s inp t = q \/ fetched_before s inp t = S q) /\ happened s inp ev (S t) /\
  io_left ram phys ev (boot_arch s, m0) n q {| l_x := s_mem (run s inp t); l_mem := ram_mem ram phys s inp m0 (S t); l_mtvec := s_mem (run s inp t) 37; l_mscratch := s_mem (run s inp t) 40 |}.
Proof.
  intros K Sl Hb Ht. set (inq := inp' ram phys s inp m0 t).
  assert (Rq : forall u, (u <= S t)%nat -> run s inq u = run s inp u) by (intros; apply run_old; assumption).
  assert (Iq : forall u, (u <= t)%nat -> inq u = inp u) by (intros; apply inp'_old; assumption).
  assert (Fq : forall u, (u <= S t)%nat -> fetched_before s inq u = fetched_before s inp u) by (intros u Hu; apply fb_ext; intros v Hv; rewrite Rq, Iq by lia; split; reflexivity).
  destruct (io_every_answered ram phys s inq m0 (ok_ext ram phys s inp m0 t K Hb) (slave_ext ram phys s inp m0 t Sl Hb) _ t (answers_ext ram phys s inp m0 t K Hb) Ht) as (ev & n & q & Hn & Hq & Hh & Lb).
  rewrite Fq in Hn, Hq by lia. exists ev, n, q. split; [exact Hn|]. split; [exact Hq|]. split.
  - intros u Hu C A. specialize (Hh u Hu). rewrite Rq, Iq, Fq in Hh by lia. specialize (Hh C A). destruct (u_fetch _); [|exact Hh]. destruct Hh as [Hc Hi]. split; [exact Hc|]. intros i. rewrite Hi. apply irq_same.
  - rewrite Rq in Lb by lia. destruct Lb as [L1 L2]. split; [|exact L2]. cbn [l_x l_mem] in *. pose proof (ram_old ram phys s inp m0 t (S t) (le_n _)) as Ro. fold inq in Ro.
    destruct L1 as [a m1 E X M|a m1 i f rd rs1 am j E I D Sh Hj X M].
    + eapply io_whole; [exact E|exact X|]. intros z. rewrite <- Ro. apply M.
    + eapply io_part; [exact E|exact I|exact D|exact Sh|exact Hj|exact X|]. intros z. rewrite <- Ro. apply M.
Qed.

(** ** Proofs: many lives *)
Section Lives.
Variables (X : Type) (cpu : X -> state) (mem : X -> wbmem) (start : X -> Prop) (ram : Z -> bool) (phys : Z -> Z) (rw : nat -> bool) (sr : nat -> X).
Local Notation hold t := (holds (cpu (sr t)) (mem (sr t))).
Local Notation boot t := (boot_arch (cpu (sr t)), fun z => byte (wm_mem (mem (sr t)) (z / 4)) (z mod 4)).
Hypotheses (H0 : start (sr O)) (Hf : forall x, start x -> fresh (cpu x))
  (Hstep : forall t, exists i, cpu (sr (S t)) = step (cpu (sr t)) i)
  (Hrst : forall T n, start (sr T) -> (forall u, (u < n)%nat -> rw (T + u)%nat = false) -> rw (T + n)%nat = true -> start (sr (S (T + n))))
  (Hlife : forall T n x, start (sr T) -> (forall u, (u < n)%nat -> rw (T + u)%nat = false) -> x = S (T + n) \/ x = (T + n)%nat /\ (1 <= n)%nat ->
    exists ev j q, adjacent_to j q /\ io_left ram phys ev (boot T) j q (hold x)).
Lemma J_lives t : exists j, J j (cpu (sr t)).
Proof. induction t as [|t (j & IH)]; [exists (-1); apply J_fresh, Hf, H0|]. destruct (Hstep t) as (i & ->). eexists. apply (J_step j). exact IH. Qed.
Lemma rom_lives t : exists j, 0 <= j < 256 /\ s_u (cpu (sr (S t))) = rom j.
Proof. destruct (J_lives t) as (j & Hj). destruct (Hstep t) as (i & ->). eexists. split; [apply (seq_range j _ i Hj)|apply step_u]. Qed.
Lemma since t : exists T n, t = (T + n)%nat /\ (forall u, (u < n)%nat -> rw (T + u)%nat = false) /\ start (sr T) /\
  ((T = O /\ resets rw t = O) \/ exists r T', T = S T' /\ io_history ram phys (fst (boot 0)) (snd (boot 0)) r (hold T) /\ resets rw t = S r).
Proof.
  induction t as [|t (T & n & -> & H & F & Q)].
  - exists O, O. split; [reflexivity|]. split; [intros; lia|]. split; [exact H0|]. left. split; reflexivity.
  - unfold resets. rewrite count_S. fold (resets rw (T + n)). destruct (rw (T + n)%nat) eqn:R.
    + exists (S (T + n)), O. split; [lia|]. split; [intros; lia|]. split; [apply Hrst; assumption|].
      right. destruct (Hlife T n (S (T + n)) F H (or_introl eq_refl)) as (o & j & q & Aq & Lb). destruct Q as [(-> & Q)|(r & T' & -> & Lr & Q)]; rewrite Q.
      * exists O, (0 + n)%nat. split; [reflexivity|]. split; [|reflexivity]. eapply io_one_life; [exact Aq|exact Lb].
      * exists (S r), (S T' + n)%nat. split; [reflexivity|]. split; [|lia]. destruct (rom_lives T') as (x & Hx & Ux).
        eapply (io_another _ _ _ _ r _ (fst (boot (S T')))); [exact Lr|repeat split| | | |exact Aq|exact Lb].
        -- intros y Hy. apply fresh_gp; [apply Hf; exact F|assumption].
        -- exact (fresh_kept _ x 37 (Hf _ F) Hx Ux (or_introl eq_refl)).
        -- exact (fresh_kept _ x 40 (Hf _ F) Hx Ux (or_intror eq_refl)).
    + exists T, (S n). split; [lia|]. split. { intros u Hu. destruct (Nat.eq_dec u n) as [->|]; [exact R|apply H; lia]. }
      split; [exact F|]. rewrite Nat.add_0_r. exact Q.
Qed.
Lemma lived t : (1 <= t)%nat -> io_history ram phys (fst (boot 0)) (snd (boot 0)) (resets rw t) (hold t).
Proof.
  intros Ht. destruct (since t) as (T & n & -> & H & F & Q). destruct Q as [(-> & Q)|(r & T' & -> & Lr & Q)]; rewrite Q.
  - destruct (Hlife 0 n (0 + n)%nat F H) as (o & j & q & Aq & Lb); [right; split; [reflexivity|lia]|]. eapply io_one_life; [exact Aq|exact Lb].
  - destruct (rom_lives T') as (x & Hx & Ux). pose proof (Hf _ F) as Fc.
    assert (L : exists o j q, adjacent_to j q /\ io_left ram phys o (boot (S T')) j q (hold (S T' + n)%nat)).
    { destruct n as [|n]; [|apply (Hlife (S T') (S n)); [exact F|exact H|right; split; [reflexivity|lia]]].
      rewrite Nat.add_0_r. exists (fun _ => {| e_int := fun _ => false; e_code := 0; e_data := 0 |}), O, O. split; [left; reflexivity|]. split; [|split].
      - eapply io_whole; [reflexivity| |intros z; reflexivity]. intros y Hy. symmetry. apply fresh_gp; assumption.
      - symmetry. exact (fresh_kept _ x 37 Fc Hx Ux (or_introl eq_refl)).
      - symmetry. exact (fresh_kept _ x 40 Fc Hx Ux (or_intror eq_refl)). }
    destruct L as (o & j & q & Aq & Lb). eapply io_another; [exact Lr| | | | |exact Aq|exact Lb]; [repeat split| | |].
    + intros y Hy. apply fresh_gp; assumption.
    + exact (fresh_kept _ x 37 Fc Hx Ux (or_introl eq_refl)).
    + exact (fresh_kept _ x 40 Fc Hx Ux (or_intror eq_refl)).
Qed.
End Lives.
Lemma io_left_ext ram phys ev am n q x m m' v w : (forall z, m z = m' z) ->
  io_left ram phys ev am n q {| l_x := x; l_mem := m; l_mtvec := v; l_mscratch := w |} -> io_left ram phys ev am n q {| l_x := x; l_mem := m'; l_mtvec := v; l_mscratch := w |}.
Proof.
  intros E [L1 L2]. split; [|exact L2]. cbn [l_x l_mem] in *. destruct L1 as [a m1 R X M|a m1 i f rd rs1 am' j R I D Sh Hj X M].
  - eapply io_whole; [exact R|exact X|]. intros z. rewrite <- E. apply M.
  - eapply io_part; [exact R|exact I|exact D|exact Sh|exact Hj|exact X|]. intros z. rewrite <- E. apply M.
Qed.
Lemma adjacent_fb f n q : f = n \/ f = S n -> f = q \/ f = S q -> adjacent_to n q.
Proof. unfold adjacent_to. lia. Qed.

(** ** Theorems *)
(** C84, one boot: in every cycle of AttoSoC, whatever the program, the pins and the devices do, registers and RAM together are those of the machine with RAM and devices
    after all the instructions fetched so far, or after all but the last one, or the last one is a shift that has been done in part; [mtvec] and [mscratch] are those after all of them or
    after all but the last one. *)
Theorem C84_every_cycle : forall k D x0 p, soc_start x0 -> pins_ok p ->
  let s := so_cpu x0 in let inp := soc_inp k D x0 p in
  forall t, (1 <= t)%nat -> exists ev n q, (fetched_before s inp t = n \/ fetched_before s inp t = S n) /\ (fetched_before s inp t = q \/ fetched_before s inp t = S q) /\
  happened s inp ev (S t) /\
  io_left (fun a => a <? 2 ^ 23) (fun a => a mod 2 ^ k) ev (boot_arch s, soc_bytes x0) n q (let x := soc_run k D x0 p t in holds (so_cpu x) (so_mem x)).
Proof.
  intros k D x0 p Hs Hp s inp t Ht.
  destruct (io_every (fun a => a <? 2 ^ 23) (fun a => a mod 2 ^ k) s inp (soc_bytes x0) t (soc_bus_ok k D x0 p Hs Hp) (soc_ram_slave k D x0 p Hs Hp) (fun z => b8 _ _) Ht) as (ev & n & q & Hn & Hq & Hh & L).
  exists ev, n, q. split; [exact Hn|]. split; [exact Hq|]. split; [exact Hh|]. cbv zeta. unfold holds. rewrite soc_run_cpu. fold s inp. eapply io_left_ext; [|exact L].
  intros z. symmetry. apply (IoMem.array k D x0 p Hs Hp).
Qed.
(** C84: whenever and however often the SoC is reset, registers, RAM, [mtvec] and [mscratch] in any cycle are what one more life than there were resets can leave,
    each life starting with what the one before left. *)
Theorem C84_resets : forall k D rw x0 p, soc_start x0 -> pins_ok p -> forall t, (1 <= t)%nat ->
  io_history (fun a => a <? 2 ^ 23) (fun a => a mod 2 ^ k) (boot_arch (so_cpu x0)) (soc_bytes x0) (resets rw t)
    (let x := soc_rrun k D rw x0 p t in holds (so_cpu x) (so_mem x)).
Proof.
  intros k D rw x0 p Hs Hp t Ht.
  apply (lived soc so_cpu so_mem soc_start (fun a => a <? 2 ^ 23) (fun a => a mod 2 ^ k) rw (soc_rrun k D rw x0 p) Hs (fun x H => st_cpu x H)); [| | |exact Ht].
  - intros u. eexists. reflexivity.
  - intros T n St H R. apply IoMem.reset_starts; [exact Hs|exact Hp|exact R|]. exists T, n. auto.
  - intros T n x St H Hx. set (y := soc_rrun k D rw x0 p T) in *. set (q := fun u => p (T + u)%nat).
    assert (Eh : exists n', (1 <= n')%nat /\ holds (so_cpu (soc_rrun k D rw x0 p x)) (so_mem (soc_rrun k D rw x0 p x)) = holds (so_cpu (soc_run k D y q n')) (so_mem (soc_run k D y q n'))).
    { destruct Hx as [->|[-> Hn]].
      - exists (S n). split; [lia|]. cbn [soc_rrun soc_run]. rewrite (soc_quiet k D rw x0 p T n H). fold y q. apply holds_eq; [apply step_mem|reflexivity].
      - exists n. split; [exact Hn|]. rewrite (soc_quiet k D rw x0 p T n H). reflexivity. }
    destruct Eh as (n' & Hn' & ->). destruct (C84_every_cycle k D y q St (fun u => Hp (T + u)%nat) n' Hn') as (ev & j & q' & Hj & Hq & _ & L).
    exists ev, j, q'. split; [eapply adjacent_fb; eassumption|exact L].
Qed.
(** The same on the CSR variant. *)
Theorem C84_csr_every_cycle : forall k D x0 p, csoc_start x0 -> pins_ok p ->
  let s := co_cpu x0 in let inp := csoc_inp k D x0 p in
  forall t, (1 <= t)%nat -> exists ev n q, (fetched_before s inp t = n \/ fetched_before s inp t = S n) /\ (fetched_before s inp t = q \/ fetched_before s inp t = S q) /\
  happened s inp ev (S t) /\
  io_left (fun a => a <? 2 ^ 23) (fun a => a mod 2 ^ k) ev (boot_arch s, csoc_bytes x0) n q (let x := csoc_run k D x0 p t in holds (co_cpu x) (co_mem x)).
Proof.
  intros k D x0 p Hs Hp s inp t Ht.
  destruct (io_every (fun a => a <? 2 ^ 23) (fun a => a mod 2 ^ k) s inp (csoc_bytes x0) t (csoc_bus_ok k D x0 p Hs) (csoc_ram_slave k D x0 p Hs Hp) (fun z => b8 _ _) Ht) as (ev & n & q & Hn & Hq & Hh & L).
  exists ev, n, q. split; [exact Hn|]. split; [exact Hq|]. split; [exact Hh|]. cbv zeta. unfold holds. rewrite csoc_run_cpu. fold s inp. eapply io_left_ext; [|exact L].
  intros z. symmetry. apply (CsrIoMem.array k D x0 p Hs).
Qed.
Theorem C84_csr_resets : forall k D rw x0 p, csoc_start x0 -> pins_ok p -> forall t, (1 <= t)%nat ->
  io_history (fun a => a <? 2 ^ 23) (fun a => a mod 2 ^ k) (boot_arch (co_cpu x0)) (csoc_bytes x0) (resets rw t)
    (let x := csoc_rrun k D rw x0 p t in holds (co_cpu x) (co_mem x)).
Proof.
  intros k D rw x0 p Hs Hp t Ht.
  apply (lived csoc co_cpu co_mem csoc_start (fun a => a <? 2 ^ 23) (fun a => a mod 2 ^ k) rw (csoc_rrun k D rw x0 p) Hs (fun x H => cst_cpu x H)); [| | |exact Ht].
  - intros u. eexists. reflexivity.
  - intros T n St H R. apply CsrIoMem.reset_starts; [exact Hs|exact R|]. exists T, n. auto.
  - intros T n x St H Hx. set (y := csoc_rrun k D rw x0 p T) in *. set (q := fun u => p (T + u)%nat).
    assert (Eh : exists n', (1 <= n')%nat /\ holds (co_cpu (csoc_rrun k D rw x0 p x)) (co_mem (csoc_rrun k D rw x0 p x)) = holds (co_cpu (csoc_run k D y q n')) (co_mem (csoc_run k D y q n'))).
    { destruct Hx as [->|[-> Hn]].
      - exists (S n). split; [lia|]. cbn [csoc_rrun csoc_run]. rewrite (csoc_quiet k D rw x0 p T n H). fold y q. apply holds_eq; [apply step_mem|reflexivity].
      - exists n. split; [exact Hn|]. rewrite (csoc_quiet k D rw x0 p T n H). reflexivity. }
    destruct Eh as (n' & Hn' & ->). destruct (C84_csr_every_cycle k D y q St (fun u => Hp (T + u)%nat) n' Hn') as (ev & j & q' & Hj & Hq & _ & L).
    exists ev, j, q'. split; [eapply adjacent_fb; eassumption|exact L].
Qed.

(** ** The boot-counting program on the SoC *)
Lemma io_counted_step v j a m e : counted v j a m -> exists j', counted v j' (fst (io_step (fun a => a <? 2 ^ 23) (fun a => a mod 2 ^ 8) (a, m) e)) (snd (io_step (fun a => a <? 2 ^ 23) (fun a => a mod 2 ^ 8) (a, m) e)).
Proof.
  intros C. pose proof C as [Hj Hpc _ _ Hc]. rewrite io_flat; [apply (counted_step v j); exact C| |].
  - rewrite Hpc. apply Z.ltb_lt. change (2 ^ 23) with 8388608. Z.to_euclidean_division_equations; lia.
  - rewrite Hpc, (counting_word m j Hc Hj). destruct Hj; subst j; exact I.
Qed.
Lemma io_counted_run v ev n a m : counted v 0 a m -> exists j, counted v j (fst (io_run (fun a => a <? 2 ^ 23) (fun a => a mod 2 ^ 8) ev n (a, m))) (snd (io_run (fun a => a <? 2 ^ 23) (fun a => a mod 2 ^ 8) ev n (a, m))).
Proof.
  intros C. induction n as [|n IH]; [exists 0; exact C|]. destruct IH as (j & S). cbn [io_run]. destruct (io_run _ _ ev n (a, m)) as [a' m']. apply (io_counted_step v j); assumption.
Qed.
Lemma io_counted_stop v ev n a m x m' : counted v 0 a m -> io_stopped (fun a => a <? 2 ^ 23) (fun a => a mod 2 ^ 8) ev (a, m) n x m' -> counting_in m' /\ exists j, (j = 0 \/ j = 1) /\ x 9 = (v + j) mod 2 ^ 32.
Proof.
  intros C [a1 m1 E Hx Hm|a1 m1 i f rd rs1 amount j E _ D Sh _ _ _].
  - destruct (io_counted_run v ev n a m C) as (j & [Hj _ _ H9 Hc]). rewrite E in *. cbn [fst snd] in *. split; [intros z Hz; rewrite Hm; apply Hc; exact Hz|].
    exists j. split; [exact Hj|]. rewrite Hx by lia. exact H9.
  - exfalso. destruct (io_counted_run v ev n a m C) as (j' & [Hj Hpc _ _ Hc]). rewrite E in *. cbn [fst snd] in *.
    assert (Rm : (pc a1 / 4 <? 2 ^ 23) = true) by (rewrite Hpc; apply Z.ltb_lt; change (2 ^ 23) with 8388608; Z.to_euclidean_division_equations; lia).
    rewrite Rm, Hpc, (counting_word m1 j' Hc Hj) in D. destruct Hj; subst j'.
    + change (decode (nth (Z.to_nat 0) counting 0)) with (Some (OpImm ADD 9 9 1)) in D. injection D as <-. discriminate.
    + change (decode (nth (Z.to_nat 1) counting 0)) with (Some (Jal 0 0)) in D. injection D as <-. discriminate.
Qed.
Lemma io_counted_history a m r l : io_history (fun a => a <? 2 ^ 23) (fun a => a mod 2 ^ 8) a m r l -> booted a -> counting_in m -> word (rd_x a 9) ->
  counting_in (l_mem l) /\ exists c, 0 <= c <= Z.of_nat r + 1 /\ l_x l 9 = (rd_x a 9 + c) mod 2 ^ 32.
Proof.
  intros H Ba Hc W. induction H as [o n q l _ (St & _)|r l a' o n q l' H IH Ba' Hx _ _ _ (St & _)].
  - destruct (fun C => io_counted_stop (rd_x a 9) o n a m _ _ C St) as (C' & j & Hj & E).
    { destruct Ba as (B1 & B2 & _). constructor; auto. rewrite Z.add_0_r, Z.mod_small; [reflexivity|exact W]. }
    split; [exact C'|]. exists j. split; [lia|exact E].
  - destruct IH as (C1 & c & Rc & Ec).
    destruct (fun C => io_counted_stop (rd_x a 9 + c) o n a' (l_mem l) _ _ C St) as (C' & j & Hj & E).
    { destruct Ba' as (B1 & B2 & _). constructor; auto. rewrite Z.add_0_r, Hx by lia. exact Ec. }
    split; [exact C'|]. exists (c + j). split; [lia|]. rewrite E. f_equal. lia.
Qed.
Lemma count_of a m w l : io_history (fun a => a <? 2 ^ 23) (fun a => a mod 2 ^ 8) (boot_arch a) (fun z => byte (wm_mem m (z / 4)) (z mod 4)) w l -> fresh a ->
  wm_mem m 0 = 0x00148493 -> wm_mem m 1 = 0x0000006f -> exists c, 0 <= c <= Z.of_nat w + 1 /\ l_x l 9 = (s_mem a 9 + c) mod 2 ^ 32.
Proof.
  intros H Hf H0 H1. assert (Hb : rd_x (boot_arch a) 9 = s_mem a 9) by (apply fresh_gp; [exact Hf|lia]).
  apply io_counted_history in H.
  - destruct H as (_ & c & Rc & E). exists c. split; [exact Rc|]. rewrite Hb in E. exact E.
  - repeat split.
  - intros z Hz. assert (J : z / 4 = 0 \/ z / 4 = 1) by (Z.to_euclidean_division_equations; lia). destruct J as [J|J]; rewrite J; [rewrite H0|rewrite H1]; reflexivity.
  - rewrite Hb. destruct Hf as (u & m' & rd & _ & W). apply W.
Qed.
(** C84, an application: the program of C81 (addi s1,s1,1; j .) in the RAM of the SoC, with the timer running and anything on the pins: however often the SoC is reset and in
    whichever cycles, register 9 has in every cycle been incremented at most once for each boot. *)
Theorem C84_boot_count : forall D rw x0 p, soc_start x0 -> pins_ok p -> wm_mem (so_mem x0) 0 = 0x00148493 -> wm_mem (so_mem x0) 1 = 0x0000006f -> forall t, (1 <= t)%nat ->
  exists c, 0 <= c <= Z.of_nat (resets rw t) + 1 /\ s_mem (so_cpu (soc_rrun 8 D rw x0 p t)) 9 = (s_mem (so_cpu x0) 9 + c) mod 2 ^ 32.
Proof. intros D rw x0 p Hs Hp H0 H1 t Ht. exact (count_of _ _ _ _ (C84_resets 8 D rw x0 p Hs Hp t Ht) (st_cpu _ Hs) H0 H1). Qed.
Theorem C84_csr_boot_count : forall D rw x0 p, csoc_start x0 -> pins_ok p -> wm_mem (co_mem x0) 0 = 0x00148493 -> wm_mem (co_mem x0) 1 = 0x0000006f -> forall t, (1 <= t)%nat ->
  exists c, 0 <= c <= Z.of_nat (resets rw t) + 1 /\ s_mem (co_cpu (csoc_rrun 8 D rw x0 p t)) 9 = (s_mem (co_cpu x0) 9 + c) mod 2 ^ 32.
Proof. intros D rw x0 p Hs Hp H0 H1 t Ht. exact (count_of _ _ _ _ (C84_csr_resets 8 D rw x0 p Hs Hp t Ht) (cst_cpu _ Hs) H0 H1). Qed.
(** Three boots on both SoCs; then a load from an address where nothing answers (li s3,5; lui s2,0x10000; lw s3,0(s2)): the core waits for ever, s3 keeps its value, and only a reset gets it out. *)
Lemma soc_of_start l : Forall word l -> soc_start (soc_of l).
Proof. intros H. constructor; try reflexivity; [apply por_fresh|apply start_of; exact H]. Qed.
Lemma csoc_of_start l : Forall word l -> csoc_start (csoc_of l).
Proof. intros H. constructor; try reflexivity; [apply por_fresh|apply start_of; exact H]. Qed.
Example C84_applies : soc_start (soc_of counting) /\ csoc_start (csoc_of counting) /\ pins_ok still /\
  (let rw := fun t => Nat.eqb t 20 || Nat.eqb t 40 || Nat.eqb t 45 in
   map (fun t => s_mem (so_cpu (soc_rrun 8 104 rw (soc_of counting) still t)) 9) [20; 39; 46; 70]%nat = [1; 2; 2; 3] /\
   map (fun t => s_mem (co_cpu (csoc_rrun 8 104 rw (csoc_of counting) still t)) 9) [20; 39; 46; 70]%nat = [1; 2; 2; 3] /\
   resets rw 70 = 3%nat) /\
  (let hang := soc_rrun 8 104 (fun t => Nat.eqb t 900) (soc_of [0x00500993; 0x10000937; 0x00092983]) still in
   map (fun t => let x := so_cpu (hang t) in (s_mem x 18, s_mem x 19, o_cyc x, o_adr x)) [100; 900; 906]%nat = [(268435456, 5, true, 67108864); (268435456, 5, true, 67108864); (268435456, 5, true, 0)]).
Proof.
  split; [apply soc_of_start; repeat constructor; unfold word; lia|]. split; [apply csoc_of_start; repeat constructor; unfold word; lia|]. split; [intros t; cbn; lia|]. vm_compute. auto.
Qed.

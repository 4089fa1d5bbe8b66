(** * C91: whole systems, closed (the core's part)

    Nothing in /repo is modelled here beyond Cpu.v: the core is replaced by the instruction set and its timing, and devices, whatever
    they are, are stepped in lock step with it.  Nothing is left open but the devices' pins. *)
From Coq Require Import ZArith Lia Bool List.
From Verif Require Import Bits Ucode Cpu Isa Timed BitLemmas Wf Sym Blocks CsrBlocks DecodeOk Boundary Sim Main Obs PropsBus PropsInv Observe PropsIsa PropsFrame Latency Memory SocMem Crash IoMem SeqTest PowerUp Transparent IoTransparent Emulate Clocked Waves.
Import ListNotations.
Open Scope Z_scope.

(** ** Specification *)
(** What a device sees on its bus in a cycle: nothing, or a request. *)
Definition idle_bus : wbus := {| b_cyc := false; b_stb := false; b_we := false; b_adr := 0; b_sel := 0; b_dat_w := 0 |}.
Definition req_bus (r : breq) : wbus := {| b_cyc := true; b_stb := true; b_we := q_we r; b_adr := q_adr r; b_sel := q_sel r; b_dat_w := q_dat r |}.
(** The transfer an instruction makes: how many cycles after its fetch the request appears, and the request.  [i]: the instruction
    is not executed because an interrupt is taken instead. *)
Definition transfer (a : arch) (w : Z) (i : bool) : option (nat * breq) :=
  if i then None else
  match decode w with
  | Some (Load sz _ _ rs1 off) => let ea := (rd_x a rs1 + off) mod 2 ^ 32 in
      if ea mod bytes sz =? 0 then Some (5%nat, {| q_adr := ea / 4; q_sel := lanes sz ea; q_we := false; q_dat := 0 |}) else None
  | Some (Store sz rs1 rs2 off) => let ea := (rd_x a rs1 + off) mod 2 ^ 32 in
      if ea mod bytes sz =? 0 then Some (6%nat, {| q_adr := ea / 4; q_sel := lanes sz ea; q_we := true; q_dat := store_data sz ea (rd_x a rs2) |}) else None
  | _ => None
  end.
(** The request of a fetch. *)
Definition fetch_req (a : arch) : breq := {| q_adr := pc a / 4; q_sel := 15; q_we := false; q_dat := 0 |}.
(** A cycle (of a fetch), the registers of the instruction set, the RAM, and the devices in that cycle. *)
Record whole (X : Type) := { wh_time : nat; wh_arch : arch; wh_mem : Z -> Z; wh_dev : X }.
Arguments wh_time {X}. Arguments wh_arch {X}. Arguments wh_mem {X}. Arguments wh_dev {X}.

Section Machine.
(** [dstep]: one cycle of the devices, with what is on the bus and on the pins; [ddat]: the data they return for a word address;
    [dirq]: their interrupt request. *)
Variables (X P : Type) (dstep : X -> wbus -> P -> X) (ddat : X -> Z -> Z) (dirq : X -> bool).
Variables (mapped ram : Z -> bool) (phys : Z -> Z) (wait : latency) (pin : nat -> P).
(** What the devices see of a request: nothing, if it is the RAM's. *)
Definition shown (r : breq) : wbus := if ram (q_adr r) then idle_bus else req_bus r.
(** The devices [n] cycles after cycle [t]. *)
Fixpoint drun (b : nat -> wbus) (t n : nat) (d : X) : X :=
  match n with O => d | S k => dstep (drun b t k d) (b (t + k)%nat) (pin (t + k)%nat) end.
(** The instruction, the interrupt request in the cycles after its fetch, the cycle of the next fetch request, and the transfer. *)
Definition wh_word (q : whole X) : Z := let p := pc (wh_arch q) in if ram (p / 4) then peek phys (wh_mem q) p 4 else ddat (wh_dev q) (p / 4).
Definition wh_line (q : whole X) (i : nat) : bool :=
  dirq (drun (fun c => if Nat.eqb c (wh_time q) then shown (fetch_req (wh_arch q)) else idle_bus) (wh_time q) i (wh_dev q)).
Definition wh_next (q : whole X) : nat := let a := wh_arch q in let en := mie a && meie a in
  until wait (wh_time q) (rd_x a) (pc a) (wh_word q) (en && wh_line q 1%nat) (en && wh_line q 2%nat).
Definition wh_transfer (q : whole X) : option (nat * breq) := let a := wh_arch q in transfer a (wh_word q) (mie a && meie a && wh_line q 1%nat).
(** What the devices see until then: the end of the fetch, and the transfer. *)
Definition wh_held (q : whole X) (c : nat) : wbus :=
  if Nat.eqb c (wh_time q) then shown (fetch_req (wh_arch q)) else
  match wh_transfer q with
  | Some (n, r) => if Nat.leb (wh_time q + n) c && Nat.leb c (wh_next q - 2) then shown r else idle_bus
  | None => idle_bus
  end.
(** What the instruction does to registers and RAM. *)
Definition wh_result (q : whole X) : arch * (Z -> Z) :=
  let data := match wh_transfer q with Some (_, r) => ddat (drun (wh_held q) (wh_time q) (wh_next q - 2 - wh_time q) (wh_dev q)) (q_adr r) | None => 0 end in
  io_step ram phys (wh_arch q, wh_mem q) {| e_int := wh_line q; e_code := wh_word q; e_data := data |}.
(** What the devices see until the next fetch is acknowledged, and what becomes of them. *)
Definition wh_bus (q : whole X) (c : nat) : wbus := if Nat.leb (wh_next q) c then shown (fetch_req (fst (wh_result q))) else wh_held q c.
Definition wh_devs (q : whole X) (c : nat) : X := drun (wh_bus q) (wh_time q) (c - wh_time q) (wh_dev q).
(** One instruction. *)
Definition wh_step (q : whole X) : whole X :=
  let am := wh_result q in let t := (wh_next q + wait (wh_next q) (pc (fst am) / 4)%Z false)%nat in
  {| wh_time := t; wh_arch := fst am; wh_mem := snd am; wh_dev := wh_devs q t |}.
Definition wh_start (a : arch) (m : Z -> Z) (d : X) : whole X :=
  let t := (5 + wait 5%nat 0%Z false)%nat in {| wh_time := t; wh_arch := a; wh_mem := m; wh_dev := drun (fun _ => idle_bus) 0 t d |}.
Definition wh_run (q : whole X) (n : nat) : whole X := Nat.iter n wh_step q.
(** The devices in cycle [c], as far as the first [n] instructions go. *)
Fixpoint wh_devices (a : arch) (m : Z -> Z) (d : X) (n c : nat) : X :=
  match n with
  | O => drun (fun _ => idle_bus) 0 c d
  | S j => let q := wh_run (wh_start a m d) j in if Nat.leb c (wh_time q) then wh_devices a m d j c else wh_devs q c
  end.
(** The request at which the machine stops, if it does, before the next fetch is acknowledged: the cycle it appears, and the request.  It is
    the instruction's transfer, or the next fetch, to an address where nothing is. *)
Definition wh_stuck (q : whole X) : option (nat * breq) :=
  let next := let r := fetch_req (fst (wh_result q)) in if mapped (q_adr r) then None else Some (wh_next q, r) in
  match wh_transfer q with
  | Some (n, r) => if mapped (q_adr r) then next else Some ((wh_time q + n)%nat, r)
  | None => next
  end.
(** The devices in cycle [c], if a request [r] appears in cycle [v] and stays. *)
Definition wh_hung (q : whole X) (v : nat) (r : breq) (c : nat) : X :=
  drun (fun c' => if Nat.leb v c' then shown r else wh_held q c') (wh_time q) (c - wh_time q) (wh_dev q).
End Machine.

(** ** Proof *)
Lemma fetch_delay_2 a w i1 i2 : (2 <= fst (fetch_delay a w i1 i2))%nat.
Proof.
  unfold fetch_delay. destruct (int_enabled a && i1); [cbn [trap_delay fst]; lia|]. destruct (decode w) as [i|]; [|cbn [trap_delay fst]; lia].
  destruct (is_csr i && _); [cbn [trap_delay fst]; lia|]. unfold exec_delay, jump_delay.
  destruct i; cbv zeta; repeat match goal with |- context[if ?b then _ else _] => destruct b | |- context[match csr_read ?a ?b ?c with _ => _ end] => destruct (csr_read a b c) | |- context[match ?f with CSRRW => _ | CSRRS => _ | CSRRC => _ end] => destruct f end;
    cbn [trap_delay fst]; try lia; destruct f; cbn [fst]; lia.
Qed.
Lemma transfer_fetched a w i1 i2 i3 : 
  match transfer a w (int_enabled a && i1) with
  | Some (n, r) => (exists k, fetched SENTINEL a w i1 i2 i3 = Accessing r k) /\ n = (1 + fst (fetch_delay a w i1 i2))%nat
  | None => exists a', fetched SENTINEL a w i1 i2 i3 = Fetching a'
  end.
Proof.
  unfold transfer, fetched, fetch_delay. destruct (int_enabled a && i1); [eexists; reflexivity|]. destruct (decode w) as [i|]; [|eexists; reflexivity].
  destruct (is_csr i && (int_enabled a && i2)) eqn:Ci; [destruct i; try discriminate Ci; eexists; reflexivity|].
  destruct i; cbn [exec exec_delay]; cbv zeta.
  all: try (eexists; reflexivity).
  all: try (repeat match goal with |- context[if ?b then _ else _] => destruct b end; eexists; reflexivity).
  - unfold aligned. destruct (_ =? 0); [|eexists; reflexivity]. split; [eexists; reflexivity|reflexivity].
  - unfold aligned. destruct (_ =? 0); [|eexists; reflexivity]. split; [eexists; reflexivity|reflexivity].
Qed.
(** Of an event an instruction uses the interrupt request in three cycles, the instruction if it is not in RAM, and the data of a transfer. *)
Lemma io_step_event (ram : Z -> bool) (phys : Z -> Z) (a : arch) (m : Z -> Z) (e e' : event) : let w := if ram (pc a / 4) then peek phys m (pc a) 4 else e_code e in
  (ram (pc a / 4) = true \/ e_code e' = e_code e) -> (forall i, (1 <= i <= 3)%nat -> e_int e' i = e_int e i) ->
  match transfer a w (int_enabled a && e_int e 1%nat) with
  | Some (_, r) => q_we r = true \/ ram (q_adr r) = true \/ e_data e' = e_data e
  | None => True
  end -> io_step ram phys (a, m) e' = io_step ram phys (a, m) e.
Proof.
  intros w R Hi. assert (W : (if ram (pc a / 4) then peek phys m (pc a) 4 else e_code e') = w) by (unfold w; destruct R as [->| ->]; reflexivity).
  unfold io_step, transfer. rewrite W, !Hi by lia. fold w. cbv zeta. destruct (int_enabled a && e_int e 1%nat); [reflexivity|].
  destruct (decode w) as [i|]; [|reflexivity]. destruct (is_csr i && _); [reflexivity|]. destruct i; try reflexivity.
  unfold aligned. destruct (_ =? 0); [|reflexivity]. cbn [q_we q_adr]. intros [H|[H|H]]; [discriminate| |]; [rewrite H|rewrite H]; reflexivity.
Qed.

Section Mid.
Variables (ram : Z -> bool) (phys : Z -> Z) (s : state) (inp : nat -> input) (m0 : Z -> Z).
Hypothesis (K : ok s inp) (Sl : ram_slave ram phys s inp m0).
Local Notation fb := (fetched_before s inp). Local Notation rm := (ram_mem ram phys s inp m0).
(** Like [io_exec], before the next fetch is acknowledged. *)
Lemma io_upto t t' w a' : fetch_done s inp t w -> (t < t')%nat -> (forall v w', (t < v < t')%nat -> ~ fetch_done s inp v w') -> machine s inp t' = Fetching a' ->
  exists a m e, machine s inp t = Fetching a /\ (forall z, m z = rm t z) /\
  (forall i, e_int e i = irq (inp (t + i)%nat)) /\ e_code e = w /\ (forall u, (t < u < t')%nat -> data_done s inp u -> e_data e = dat_r (inp u)) /\
  a' = fst (io_step ram phys (a, m) e) /\ forall z, snd (io_step ram phys (a, m) e) z = rm t' z.
Proof.
  intros F L N M'. destruct (fetch_machine s inp K t w F) as [a M].
  destruct (io_tracks_past ram phys s inp m0 K Sl t') as (ev & Hp & Tr). pose proof (Tr t ltac:(lia)) as T1. pose proof (Tr t' (le_n _)) as T2.
  unfold io_tracks in T1, T2. rewrite M in T1. rewrite M' in T2.
  assert (Ft : fb (S t) = S (fb t)). { unfold fetched_before. rewrite count_S. destruct F as (C & U & A & _). rewrite C, U, A. cbn [andb]. lia. }
  assert (Fc : forall d, (S t + d <= t')%nat -> fb (S t + d) = S (fb t)).
  { induction d as [|d IH]; intros Hd; [rewrite Nat.add_0_r; exact Ft|]. rewrite Nat.add_succ_r. unfold fetched_before. rewrite count_S. fold (fb (S t + d)). rewrite IH by lia.
    destruct (_ && _ && _) eqn:Q; [|apply Nat.add_0_r]. apply andb_prop in Q. destruct Q as [Q U]. apply andb_prop in Q. destruct Q as [C A].
    destruct (N (S t + d)%nat (dat_r (inp (S t + d)%nat))); [lia|]. repeat split; assumption. }
  assert (Ft' : fb t' = S (fb t)). { replace t' with (S t + (t' - S t))%nat by lia. apply Fc. lia. }
  rewrite Ft' in T2. cbn [io_run] in T2. destruct (io_run ram phys ev (fb t) (boot_arch s, m0)) as [a1 m1]. cbn [fst snd] in T1. destruct T1 as [-> T1].
  exists a, m1, (ev (fb t)). split; [exact M|]. split; [exact T1|]. destruct F as (C & U & A & W). pose proof (Hp t L C A) as H. rewrite U in H. destruct H as [H1 H2].
  split; [exact H2|]. split; [congruence|]. split.
  - intros u Hu (Cu & Uu & Au). pose proof (Hp u ltac:(lia) Cu Au) as H. rewrite Uu in H. destruct H as (n & En & Hd). replace u with (S t + (u - S t))%nat in En by lia.
    rewrite Fc in En by lia. injection En as <-. exact Hd.
  - destruct T2 as [T2 T3]. split; [symmetry; exact T2|exact T3].
Qed.
(** While no transfer is completed nothing is written. *)
Lemma ram_waits u t : (u <= t)%nat -> (forall x, (u <= x < t)%nat -> o_cyc (run s inp x) && ack (inp x) = false) -> forall z, rm t z = rm u z.
Proof.
  intros L. induction L as [|t L IH]; intros H z; [reflexivity|]. rewrite <- IH by (intros; apply H; lia). cbn [ram_mem]. cbv zeta. rewrite (H t) by lia. reflexivity.
Qed.
(** A request in a cycle with no acknowledge stays. *)
Lemma stays_on u n : o_cyc (run s inp u) = true -> (forall j, (j < n)%nat -> ack (inp (u + j)%nat) = false) ->
  forall j, (j <= n)%nat -> o_cyc (run s inp (u + j)) = true /\ machine s inp (u + j) = machine s inp u.
Proof.
  intros C N. induction j as [|j IH]; intros Hj; [rewrite Nat.add_0_r; auto|]. destruct (IH ltac:(lia)) as [Cj Mj]. rewrite Nat.add_succ_r.
  pose proof (N j ltac:(lia)) as B. split; [apply (C05_request_held s inp K _ Cj B)|]. rewrite machine_noack; [exact Mj|rewrite B; apply andb_false_r].
Qed.
End Mid.

Section Run.
Variables (X P : Type) (dstep : X -> wbus -> P -> X) (ddat : X -> Z -> Z) (dirq : X -> bool).
Variables (mapped ram : Z -> bool) (phys : Z -> Z) (wait : latency) (pin : nat -> P) (s : state) (inp : nat -> input) (m0 : Z -> Z).
Hypothesis (K : ok s inp) (Sl : ram_slave ram phys s inp m0) (An : answers_exactly mapped wait s inp).
(** The devices of the real system, and when a state of the simulator's is as good. *)
Variables (st : nat -> X) (same : X -> X -> Prop).
Hypotheses
  (Dq : forall c d, o_cyc (run s inp c) = false \/ ram (o_adr (run s inp c)) = true -> same (st c) d -> same (st (S c)) (dstep d idle_bus (pin c)))
  (Dr : forall c d r, Sim.shows r (run s inp c) -> ram (q_adr r) = false -> same (st c) d -> same (st (S c)) (dstep d (req_bus r) (pin c)))
  (Di : forall c d, same (st c) d -> irq (inp c) = dirq d)
  (Dd : forall c d, ram (o_adr (run s inp c)) = false -> same (st c) d -> dat_r (inp c) = ddat d (o_adr (run s inp c))).
Local Notation line := (fun c => irq (inp c)).
Local Notation bus := (fun c => dat_r (inp c)).
Local Notation dr := (drun X P dstep pin).
Local Notation show := (shown ram).
Local Notation step1 := (wh_step X P dstep ddat dirq ram phys wait pin).
Local Notation next1 := (wh_next X P dstep ddat dirq ram phys wait pin).
Local Notation line1 := (wh_line X P dstep dirq ram pin).
Local Notation word1 := (wh_word X ddat ram phys).
Local Notation devs1 := (wh_devs X P dstep ddat dirq ram phys wait pin).
Local Notation held1 := (wh_held X P dstep ddat dirq ram phys wait pin).
Local Notation bus1 := (wh_bus X P dstep ddat dirq ram phys wait pin).
Local Notation result1 := (wh_result X P dstep ddat dirq ram phys wait pin).
Local Notation tr1 := (wh_transfer X P dstep ddat dirq ram phys pin).
Local Notation stuck1 := (wh_stuck X P dstep ddat dirq mapped ram phys wait pin).
Local Notation hung1 := (wh_hung X P dstep ddat dirq ram phys wait pin).
Local Notation rm := (ram_mem ram phys s inp m0).
Definition core (q : whole X) : nat * (arch * (Z -> Z)) := (wh_time q, (wh_arch q, wh_mem q)).
(** The bus in cycle [c] is, for the devices, [b]. *)
Definition sees (c : nat) (b : wbus) : Prop :=
  (b = idle_bus /\ (o_cyc (run s inp c) = false \/ ram (o_adr (run s inp c)) = true)) \/
  exists r, b = req_bus r /\ Sim.shows r (run s inp c) /\ ram (q_adr r) = false.
Lemma sees_shown c r : Sim.shows r (run s inp c) -> sees c (show r).
Proof.
  intros Sh. unfold shown. destruct (ram (q_adr r)) eqn:R; [left; split; [reflexivity|right; rewrite (sh_adr _ _ Sh); exact R]|right; exists r; auto].
Qed.
Lemma sees_off c : o_cyc (run s inp c) = false -> sees c idle_bus.
Proof. intros H. left. auto. Qed.
Lemma follows b t d : same (st t) d -> forall n, (forall c, (t <= c < t + n)%nat -> sees c (b c)) -> same (st (t + n)) (dr b t n d).
Proof.
  intros H. induction n as [|n IH]; intros V; [rewrite Nat.add_0_r; exact H|]. rewrite Nat.add_succ_r. cbn [drun].
  specialize (IH ltac:(intros c Hc; apply V; lia)). destruct (V (t + n)%nat ltac:(lia)) as [[E Q]|(r & E & Sh & R)]; rewrite E; [apply Dq|apply Dr]; assumption.
Qed.
Lemma follows_to b t d c : same (st t) d -> (t <= c)%nat -> (forall v, (t <= v < c)%nat -> sees v (b v)) -> same (st c) (dr b t (c - t) d).
Proof. intros H L V. replace c with (t + (c - t))%nat at 1 by lia. apply follows; [exact H|]. intros v Hv. apply V. lia. Qed.
Lemma fetching_shows c a : o_cyc (run s inp c) = true -> machine s inp c = Fetching a -> Sim.shows (fetch_req a) (run s inp c).
Proof. intros C M. pose proof (bus_shows s inp K c C) as B. rewrite M in B. exact B. Qed.
(** The first cycles after a fetch. *)
Lemma early q : in_step ram phys s inp m0 (core q) -> same (st (wh_time q)) (wh_dev q) ->
  sees (wh_time q) (show (fetch_req (wh_arch q))) /\ word_at ram phys bus (core q) = word1 q /\ forall i, (i <= 3)%nat -> irq (inp (wh_time q + i)%nat) = line1 q i.
Proof.
  destruct q as [t a m d]. unfold core, in_step. cbn [wh_time wh_arch wh_mem wh_dev]. intros (F & M & Hm) Sd.
  pose proof F as (C & U & A & Dw). destruct (next_request s inp K t C A) as [Q _]. rewrite M in Q. cbn [delay_after] in Q.
  pose proof (fetch_delay_2 a (dat_r (inp t)) (irqs inp (t + 1)%nat) (irqs inp (t + 2)%nat)) as F2.
  pose proof (fetching_shows t a C M) as Sh. pose proof (sees_shown t _ Sh) as At.
  split; [exact At|]. split.
  - unfold word_at, wh_word. cbn [wh_arch wh_mem wh_dev]. cbv zeta. destruct (ram (pc a / 4)) eqn:R; [reflexivity|].
    rewrite (Dd t d); [rewrite (sh_adr _ _ Sh); reflexivity|rewrite (sh_adr _ _ Sh); exact R|exact Sd].
  - intros i Hi. unfold wh_line. apply Di. cbn [wh_time wh_arch wh_dev]. apply follows; [exact Sd|]. intros c Hc.
    destruct (Nat.eqb_spec c t) as [->|Ne]; [exact At|]. apply sees_off. replace c with (t + 1 + (c - t - 1))%nat by lia. apply Q. lia.
Qed.
(** The instruction, as far as the transfer's request or, without one, as far as the next fetch's. *)
Lemma before q : in_step ram phys s inp m0 (core q) -> same (st (wh_time q)) (wh_dev q) -> let t := wh_time q in
  let v := match tr1 q with Some (n, r) => (t + n)%nat | None => next1 q end in
  (t + 1 < v)%nat /\ request_starts s inp v /\ (forall c, (t < c < v)%nat -> o_cyc (run s inp c) = false) /\
  match tr1 q with
  | Some (n, r) => Sim.shows r (run s inp v) /\ next1 q = (v + wait v (q_adr r) (q_we r) + 2)%nat /\ exists k, machine s inp v = Accessing r k
  | None => exists a', machine s inp v = Fetching a'
  end.
Proof.
  intros Is Sd. destruct (early q Is Sd) as (_ & Ew & L3).
  destruct q as [t a m d]. set (q := {| wh_time := t; wh_arch := a; wh_mem := m; wh_dev := d |}) in *.
  change (wh_time q) with t in *. set (w := word1 q) in *. destruct Is as (F & M & Hm). change (fetch_done s inp t (word_at ram phys bus (core q))) in F. rewrite Ew in F. change (machine s inp t = Fetching a) in M. cbv zeta.
  assert (T1 : tr1 q = transfer a w (int_enabled a && irq (inp (t + 1)%nat))). { unfold wh_transfer. cbn [wh_arch q]. rewrite L3 by lia. reflexivity. }
  pose proof (transfer_fetched a w (irq (inp (t + 1)%nat)) (irq (inp (t + 2)%nat)) (irq (inp (t + 3)%nat))) as Tf. rewrite <- T1 in Tf.
  assert (Nx : next1 q = until wait t (rd_x a) (pc a) w (int_enabled a && irq (inp (t + 1)%nat)) (int_enabled a && irq (inp (t + 2)%nat))).
  { unfold wh_next. cbn [wh_time wh_arch q]. rewrite !L3 by lia. reflexivity. }
  pose proof F as (C & U & A & Dw). destruct (next_request s inp K t C A) as [Q R]. pose proof (machine_ack s inp t C A) as M1. rewrite M in Q, R, M1.
  cbn [delay_after complete] in Q, R, M1. unfold irqs in Q, R, M1. rewrite Dw in Q, R, M1.
  pose proof (fetch_delay_2 a w (irq (inp (t + 1)%nat)) (irq (inp (t + 2)%nat))) as F2.
  set (dl := fst (fetch_delay a w (irq (inp (t + 1)%nat)) (irq (inp (t + 2)%nat)))) in *.
  assert (Q0 : forall c, (t < c < t + 1 + dl)%nat -> o_cyc (run s inp c) = false). { intros c Hc. replace c with (t + 1 + (c - t - 1))%nat by lia. apply Q. lia. }
  assert (Mv : machine s inp (t + 1 + dl) = machine s inp (S t)). { apply machine_waits; [lia|]. intros c Hc. rewrite Q0 by lia. reflexivity. }
  assert (Rs : request_starts s inp (t + 1 + dl)). { split; [exact R|]. replace (t + 1 + dl)%nat with (S (t + dl)) by lia. apply Q0. lia. }
  destruct (tr1 q) as [[n r]|] eqn:Tr.
  - destruct Tf as [[k Ft] ->]. fold dl. rewrite Ft in M1. rewrite M1 in Mv. replace (t + (1 + dl))%nat with (t + 1 + dl)%nat by lia.
    split; [lia|]. split; [exact Rs|]. split; [exact Q0|].
    rewrite (until_access wait t (rd_x a) a w r k _ _ _ (fun k _ => eq_refl) Ft) in Nx. fold dl in Nx. split; [|split; [|exists k; exact Mv]].
    + pose proof (bus_shows s inp K _ R) as B. rewrite Mv in B. exact B.
    + rewrite Nx. reflexivity.
  - destruct Tf as [a' Ft]. rewrite Ft in M1. rewrite M1 in Mv. rewrite (until_simple wait t (rd_x a) a w a' _ _ _ (fun k _ => eq_refl) Ft) in Nx. fold dl in Nx.
    replace (next1 q) with (t + 1 + dl)%nat. split; [lia|]. split; [exact Rs|]. split; [exact Q0|]. exists a'. exact Mv.
Qed.
(** The instruction, as far as the next fetch request. *)
Lemma upto q : in_step ram phys s inp m0 (core q) -> same (st (wh_time q)) (wh_dev q) ->
  (match tr1 q with Some (_, r) => mapped (q_adr r) = true | None => True end) -> let t := wh_time q in let u := next1 q in
  (t < u)%nat /\ request_starts s inp u /\ (forall v w, (t < v < u)%nat -> ~ fetch_done s inp v w) /\ (forall c, (t <= c < u)%nat -> sees c (held1 q c)) /\
  machine s inp u = Fetching (fst (result1 q)) /\ forall z, snd (result1 q) z = rm u z.
Proof.
  intros Is Sd Mq t u. destruct (early q Is Sd) as (At & Ew & L3). destruct (before q Is Sd) as (Lv & Rs & Qv & Hv). fold t in At, L3, Lv, Rs, Qv, Hv. fold u in Lv, Rs, Qv, Hv.
  assert (G : (t < u)%nat /\ request_starts s inp u /\ (forall v w, (t < v < u)%nat -> ~ fetch_done s inp v w) /\ (forall c, (t <= c < u)%nat -> sees c (held1 q c)) /\
    (exists a', machine s inp u = Fetching a') /\ match tr1 q with Some (_, r) => (t < u - 2 < u)%nat /\ data_done s inp (u - 2) /\ Sim.shows r (run s inp (u - 2)) | None => True end).
  { unfold wh_held. destruct (tr1 q) as [[n r]|] eqn:Tr.
    - cbv zeta in *. fold t. fold u. set (v := (t + n)%nat) in *. destruct Hv as (Shv & Eu & k & Mv).
      destruct (An v Rs) as [Aa Na]; [rewrite (sh_adr _ _ Shv); exact Mq|]. rewrite (sh_adr _ _ Shv), (sh_we _ _ Shv) in Aa, Na. set (N := wait v (q_adr r) (q_we r)) in *.
      pose proof (stays_on s inp K v N (proj1 Rs) Na) as Held. assert (Shj : forall j, (j <= N)%nat -> Sim.shows r (run s inp (v + j))).
      { intros j Hj. destruct (Held j Hj) as [Cj Mj]. pose proof (bus_shows s inp K _ Cj) as B. rewrite Mj, Mv in B. exact B. }
      destruct (Held N (le_n N)) as [Ce Me]. rewrite Mv in Me. pose proof (machine_ack s inp _ Ce Aa) as Ma. rewrite Me in Ma. cbn [complete] in Ma.
      destruct (next_request s inp K _ Ce Aa) as [Q R]. rewrite Me in Q, R. cbn [delay_after fst] in Q, R. replace (v + N + 1 + 1)%nat with u in R by lia.
      assert (E2 : (u - 2)%nat = (v + N)%nat) by lia. specialize (Q O ltac:(lia)). rewrite Nat.add_0_r in Q. replace (v + N + 1)%nat with (S (v + N)) in Q by lia.
      assert (U2 : u_fetch (s_u (run s inp (v + N))) = false) by (pose proof (fetch_iff s inp K _ Ce) as I; rewrite Me in I; exact I).
      split; [lia|]. split; [split; [exact R|]; replace u with (S (S (v + N))) by lia; exact Q|]. split; [|split; [|split]].
      + intros x w' Hx. destruct (Nat.lt_ge_cases x v) as [H1|H1]; [intros (Cx & _); rewrite Qv in Cx by lia; discriminate|].
        destruct (Nat.lt_ge_cases x (v + N)) as [H2|H2]; [apply no_fetch; replace x with (v + (x - v))%nat by lia; rewrite Na by lia; apply andb_false_r|].
        destruct (Nat.eq_dec x (v + N)) as [->|Ne]; [intros (_ & Ux & _); congruence|]. replace x with (S (v + N)) by lia. intros (Cx & _). congruence.
      + intros c Hc. destruct (Nat.eqb_spec c t) as [->|Ne]; [exact At|]. rewrite E2.
        destruct (Nat.leb_spec v c) as [H1|H1]; cbn [andb]; [|apply sees_off, Qv; lia].
        destruct (Nat.leb_spec c (v + N)) as [H2|H2]; [apply sees_shown; replace c with (v + (c - v))%nat by lia; apply Shj; lia|].
        apply sees_off. replace c with (S (v + N)) by lia. exact Q.
      + eexists. rewrite (machine_waits s inp (S (v + N)) u); [exact Ma|lia|]. intros x Hx. replace x with (S (v + N)) by lia. rewrite Q. reflexivity.
      + rewrite E2. split; [lia|]. split; [repeat split; assumption|]. apply Shj, le_n.
    - cbv zeta in *. fold t. split; [lia|]. split; [exact Rs|]. split; [|split; [|split; [exact Hv|exact I]]].
      + intros x w' Hx (Cx & _). rewrite Qv in Cx by lia. discriminate.
      + intros c Hc. destruct (Nat.eqb_spec c t) as [->|Ne]; [exact At|]. apply sees_off, Qv. lia. }
  clear Lv Rs Qv Hv. destruct G as (Lu & Rs & Nf & Se & (a' & Mu) & Td). do 4 (split; [assumption|]).
  pose proof Is as Is'. unfold in_step, core in Is'. fold t in Is'. destruct Is' as (F & M & Hm). change (t, (wh_arch q, wh_mem q)) with (core q) in F. rewrite Ew in F.
  destruct (io_upto ram phys s inp m0 K Sl t u _ a' F Lu Nf Mu) as (b & m' & e & Mb & Em & Ei & Ec & Ed & Ea & Er). rewrite M in Mb. injection Mb as <-.
  set (a := wh_arch q) in *. set (m := wh_mem q) in *.
  assert (Mm : forall z, m' z = m z) by (intros z; rewrite Hm, Em; reflexivity).
  destruct (io_step_ext ram phys a m m' e e Mm (fun _ => eq_refl) eq_refl) as [Q1 Q2]; [destruct (decode _) as [i|]; [destruct i|]; auto|].
  assert (Ev : result1 q = io_step ram phys (a, m) e).
  { unfold wh_result. fold a m t u. apply io_step_event; cbn [e_code e_int e_data]; [right; rewrite Ec; reflexivity|intros i Hi; rewrite Ei; fold t; rewrite L3 by lia; reflexivity|].
    assert (T1 : transfer a (if ram (pc a / 4) then peek phys m (pc a) 4 else e_code e) (int_enabled a && e_int e 1%nat) = tr1 q).
    { unfold wh_transfer. fold a. rewrite Ei, L3 by lia. f_equal. rewrite Ec. unfold wh_word. fold a m. cbv zeta. destruct (ram (pc a / 4)); reflexivity. }
    rewrite T1. destruct (tr1 q) as [[n r]|]; [|exact I]. destruct Td as (L2 & Dn & Sh). right. destruct (ram (q_adr r)) eqn:Rr; [left; reflexivity|right].
    rewrite (Ed _ L2 Dn). symmetry. rewrite <- (sh_adr _ _ Sh). apply Dd; [rewrite (sh_adr _ _ Sh); exact Rr|]. apply follows_to; [exact Sd|lia|]. intros c Hc. apply Se. lia. }
  rewrite Ev. split; [rewrite <- Q1, <- Ea; exact Mu|]. intros z. rewrite <- Q2. apply Er.
Qed.
(** The instruction, as far as the next fetch. *)
Lemma whole_step q : in_step ram phys s inp m0 (core q) -> same (st (wh_time q)) (wh_dev q) -> stuck1 q = None ->
  let q' := step1 q in
  in_step ram phys s inp m0 (core q') /\ executes s inp (wh_time q) (wh_time q') (word1 q) /\
  forall c, (wh_time q <= c <= wh_time q')%nat -> same (st c) (devs1 q c).
Proof.
  intros Is Sd St q'. destruct (early q Is Sd) as (_ & Ew & _).
  assert (Mp : (match tr1 q with Some (_, r) => mapped (q_adr r) = true | None => True end) /\ mapped (pc (fst (result1 q)) / 4) = true).
  { unfold wh_stuck in St. cbv zeta in St. cbn [fetch_req q_adr] in St. destruct (mapped (pc (fst (result1 q)) / 4)).
    - split; [|reflexivity]. destruct (tr1 q) as [[n r]|]; [|exact I]. destruct (mapped (q_adr r)); [reflexivity|discriminate].
    - exfalso. destruct (tr1 q) as [[n r]|]; [destruct (mapped (q_adr r))|]; discriminate. }
  destruct Mp as [Mq Mp]. destruct (upto q Is Sd Mq) as (Lu & Rs & Nf & Se & Mu & Hu). set (t := wh_time q) in *. set (u := next1 q) in *. set (am := result1 q) in *.
  set (t' := (u + wait u (pc (fst am) / 4)%Z false)%nat). assert (Et : wh_time q' = t') by reflexivity.
  pose proof (fetching_shows u _ (proj1 Rs) Mu) as Shu. destruct (An u Rs) as [A' Na]; [rewrite (sh_adr _ _ Shu); exact Mp|].
  rewrite (sh_adr _ _ Shu), (sh_we _ _ Shu) in A', Na. change (q_adr (fetch_req (fst am))) with (pc (fst am) / 4) in A', Na. change (q_we (fetch_req (fst am))) with false in A', Na.
  pose proof (stays_on s inp K u _ (proj1 Rs) Na) as Held. change (u + wait u (pc (fst am) / 4)%Z false)%nat with t' in A'.
  destruct (Held _ (le_n _)) as [C' M']. change (u + wait u (pc (fst am) / 4)%Z false)%nat with t' in C', M'. rewrite Mu in M'.
  pose proof (fetch_at s inp K t' _ C' A' M') as F'.
  assert (Hm' : forall z, snd am z = rm t' z).
  { intros z. rewrite (ram_waits ram phys s inp m0 u t'); [apply Hu|unfold t'; lia|]. intros x Hx. replace x with (u + (x - u))%nat by lia. rewrite Na by (unfold t' in Hx; lia). apply andb_false_r. }
  split; [|split].
  - unfold in_step, core. rewrite Et. change (wh_arch q') with (fst am). change (wh_mem q') with (snd am).
    split; [|split; [exact M'|exact Hm']]. pose proof F' as (_ & U' & _). repeat split; try assumption. unfold word_at.
    rewrite (code_word ram phys s inp m0 K Sl t' (fst am) (snd am) C' A' M' Hm') at 1. reflexivity.
  - rewrite Et. unfold in_step in Is. unfold core in Is. destruct Is as (F & _). fold t in F. change (t, (wh_arch q, wh_mem q)) with (core q) in Ew. unfold core in Ew. fold t in Ew. rewrite Ew in F.
    split; [exact F|]. split; [unfold t'; lia|]. split; [eexists; exact F'|]. intros v w' Hv. destruct (Nat.lt_ge_cases v u) as [H|H]; [apply Nf; lia|].
    apply no_fetch. replace v with (u + (v - u))%nat by lia. rewrite Na by (unfold t' in Hv; lia). apply andb_false_r.
  - rewrite Et. intros c Hc. unfold wh_devs. fold t. apply follows_to; [exact Sd|lia|]. intros v Hv. unfold wh_bus. fold u am.
    destruct (Nat.leb_spec u v) as [H|H]; [|apply Se; lia]. apply sees_shown. replace v with (u + (v - u))%nat by lia.
    destruct (Held (v - u)%nat ltac:(unfold t' in Hc; lia)) as [Cv Mv]. rewrite Mu in Mv. apply fetching_shows; assumption.
Qed.
(** The instruction does not end, if nothing answers where nothing is. *)
Lemma whole_stuck q v r : (forall c, o_cyc (run s inp c) = true -> mapped (o_adr (run s inp c)) = false -> ack (inp c) = false) ->
  in_step ram phys s inp m0 (core q) -> same (st (wh_time q)) (wh_dev q) -> stuck1 q = Some (v, r) ->
  (wh_time q < v)%nat /\ request_starts s inp v /\ (forall c, (v <= c)%nat -> Sim.shows r (run s inp c) /\ ack (inp c) = false) /\
  (forall c w, (wh_time q < c)%nat -> ~ fetch_done s inp c w) /\ (forall c, (wh_time q <= c)%nat -> same (st c) (hung1 q v r c)) /\
  forall c z, (v <= c)%nat -> rm c z = (match tr1 q with Some (_, r') => if mapped (q_adr r') then snd (result1 q) else wh_mem q | None => snd (result1 q) end) z.
Proof.
  intros Un Is Sd St. destruct (before q Is Sd) as (Lb & Rb & Qb & Hb). set (t := wh_time q) in *.
  assert (G : (t < v)%nat /\ request_starts s inp v /\ Sim.shows r (run s inp v) /\ mapped (q_adr r) = false /\ (exists m, machine s inp v = m /\ request m = r) /\
    (forall x w, (t < x < v)%nat -> ~ fetch_done s inp x w) /\ (forall c, (t <= c < v)%nat -> sees c (held1 q c)) /\
    forall z, rm v z = (match tr1 q with Some (_, r') => if mapped (q_adr r') then snd (result1 q) else wh_mem q | None => snd (result1 q) end) z).
  { assert (Nx : (match tr1 q with Some (_, r') => mapped (q_adr r') = true | None => True end) -> v = next1 q -> r = fetch_req (fst (result1 q)) -> mapped (q_adr r) = false ->
      (t < v)%nat /\ request_starts s inp v /\ Sim.shows r (run s inp v) /\ mapped (q_adr r) = false /\ (exists m, machine s inp v = m /\ request m = r) /\
      (forall x w, (t < x < v)%nat -> ~ fetch_done s inp x w) /\ (forall c, (t <= c < v)%nat -> sees c (held1 q c)) /\ forall z, rm v z = snd (result1 q) z).
    { intros Mq -> Er Mr. destruct (upto q Is Sd Mq) as (Lu & Rs & Nf & Se & Mu & Hu). fold t in Lu, Nf, Se. split; [exact Lu|]. split; [exact Rs|].
      split; [rewrite Er; apply fetching_shows; [apply Rs|exact Mu]|]. split; [exact Mr|]. split; [eexists; split; [exact Mu|rewrite Er; reflexivity]|]. split; [exact Nf|]. split; [exact Se|].
      intros z. symmetry. apply Hu. }
    unfold wh_stuck in St. destruct (early q Is Sd) as (At & _). fold t in At. cbv zeta in St, Lb, Rb, Qb, Hb. destruct (tr1 q) as [[n r']|] eqn:Tr.
    - destruct (mapped (q_adr r')) eqn:Mr'.
      + destruct (mapped (q_adr (fetch_req _))) eqn:Mr; [discriminate|]. assert (v = next1 q /\ r = fetch_req (fst (result1 q))) as [Ev Er] by (split; congruence).
        apply Nx; [reflexivity|exact Ev|exact Er|rewrite Er; exact Mr].
      + fold t in St. assert (v = (t + n)%nat /\ r = r') as [Ev Er] by (split; congruence). clear Nx. rewrite <- Ev in Lb, Rb, Qb, Hb. subst r'. destruct Hb as (Sh & Eu & k & Mv).
        split; [lia|]. split; [exact Rb|]. split; [exact Sh|]. split; [exact Mr'|]. split; [eexists; split; [exact Mv|reflexivity]|]. split; [|split].
        * intros x w Hx (Cx & _). rewrite Qb in Cx by lia. discriminate.
        * intros c Hc. unfold wh_held. fold t. destruct (Nat.eqb_spec c t) as [->|Ne]; [exact At|]. rewrite Tr. fold t. rewrite <- Ev.
          replace (Nat.leb v c) with false by (symmetry; apply Nat.leb_gt; lia). apply sees_off, Qb. lia.
        * intros z. unfold in_step, core in Is. fold t in Is. destruct Is as (F & M & Hm). rewrite Hm. pose proof F as (C & U & A & _).
          rewrite (ram_waits ram phys s inp m0 (S t) v); [|lia|intros x Hx; rewrite Qb by lia; reflexivity]. cbn [ram_mem]. cbv zeta.
          pose proof (fetching_shows t _ C M) as Sf. rewrite (sh_we _ _ Sf). cbn [fetch_req q_we]. rewrite andb_false_r. reflexivity.
    - destruct (mapped (q_adr (fetch_req _))) eqn:Mr; [discriminate|]. assert (v = next1 q /\ r = fetch_req (fst (result1 q))) as [Ev Er] by (split; congruence).
      apply Nx; [exact I|exact Ev|exact Er|rewrite Er; exact Mr]. }
  clear Lb Rb Qb Hb. destruct G as (Lv & Rs & Sh & Mr & (mm & Mv & Rq) & Nf & Se & Hm).
  assert (Fo : forall n, Sim.shows r (run s inp (v + n)) /\ ack (inp (v + n)%nat) = false /\ machine s inp (v + n) = mm).
  { induction n as [|n (I1 & I2 & I3)].
    - rewrite Nat.add_0_r. split; [exact Sh|]. split; [apply Un; [apply Rs|rewrite (sh_adr _ _ Sh); exact Mr]|exact Mv].
    - rewrite Nat.add_succ_r. assert (Cn : o_cyc (run s inp (S (v + n))) = true) by (apply (C05_request_held s inp K _ (sh_cyc _ _ I1) I2)).
      assert (Mn : machine s inp (S (v + n)) = mm) by (rewrite machine_noack; [exact I3|rewrite I2; apply andb_false_r]).
      assert (Sn : Sim.shows r (run s inp (S (v + n)))) by (pose proof (bus_shows s inp K _ Cn) as B; rewrite Mn, Rq in B; exact B).
      split; [exact Sn|]. split; [apply Un; [exact Cn|rewrite (sh_adr _ _ Sn); exact Mr]|exact Mn]. }
  assert (Fc : forall c, (v <= c)%nat -> Sim.shows r (run s inp c) /\ ack (inp c) = false).
  { intros c Hc. replace c with (v + (c - v))%nat by lia. destruct (Fo (c - v)%nat) as (H1 & H2 & _). auto. }
  split; [exact Lv|]. split; [exact Rs|]. split; [exact Fc|]. split; [|split].
  - intros c w Hc. destruct (Nat.lt_ge_cases c v) as [H|H]; [apply Nf; lia|]. apply no_fetch. rewrite (proj2 (Fc c H)). apply andb_false_r.
  - intros c Hc. unfold wh_hung. fold t. apply follows_to; [exact Sd|exact Hc|]. intros x Hx. destruct (Nat.leb_spec v x) as [H|H]; [apply sees_shown; apply (Fc x H)|apply Se; lia].
  - intros c z Hc. rewrite <- Hm. apply ram_waits; [exact Hc|]. intros x Hx. rewrite (proj2 (Fc x ltac:(lia))). apply andb_false_r.
Qed.

(** The whole run.  Core, RAM and bus can be replaced by the simulator: [C91_run] for the instructions, [C91_devices] for the devices. *)
Variables (d0 : X).
Hypothesis (D0 : same (st 0%nat) d0) (R0 : ram 0 = true) (M0 : mapped 0 = true).
Local Notation q0 := (wh_start X P dstep wait pin (boot_arch s) m0 d0).
Local Notation qs n := (wh_run X P dstep ddat dirq ram phys wait pin q0 n).
Lemma whole_start : 
  in_step ram phys s inp m0 (core q0) /\ nth_fetch s inp 0 (wh_time q0) /\ forall c, (c <= wh_time q0)%nat -> same (st c) (dr (fun _ => idle_bus) 0 c d0).
Proof.
  set (t := wh_time q0).
  destruct (io_sim mapped ram phys wait s inp m0 K Sl An 0) as [Is Nf]; [intros j Hj; lia|exact M0|]. change (fst (io_clocked ram phys wait line bus (boot_arch s) m0 0)) with t in Nf.
  change (io_clocked ram phys wait line bus (boot_arch s) m0 0) with (core q0) in Is. split; [exact Is|]. split; [exact Nf|].
  intros c Hc. apply (follows (fun _ => idle_bus) 0 d0 D0 c). intros c' Hc'. left. split; [reflexivity|]. destruct (o_cyc (run s inp c')) eqn:C; [right|left; reflexivity].
  assert (Mc : forall j, (j <= t)%nat -> machine s inp j = Fetching (boot_arch s)).
  { induction j as [|j IH]; intros Hj; [reflexivity|]. rewrite machine_noack; [apply IH; lia|].
    destruct (o_cyc (run s inp j) && ack (inp j)) eqn:Q; [|reflexivity]. apply andb_prop in Q. destruct Q as [Cj Aj]. exfalso.
    pose proof (fetch_at s inp K _ (boot_arch s) Cj Aj ltac:(apply IH; lia)) as (_ & Uj & _). destruct Nf as [_ Cn].
    pose proof (fetches_mono s inp (S j) (t - S j)) as Mo. replace (S j + (t - S j))%nat with t in Mo by lia. rewrite fetches_S, Cj, Uj, Aj, Cn in Mo. cbn [andb] in Mo. lia. }
  pose proof (bus_shows s inp K c' C) as B. rewrite Mc in B by lia. rewrite (sh_adr _ _ B). exact R0.
Qed.
Theorem C91_run n : (forall j, (j < n)%nat -> stuck1 (qs j) = None) ->
  in_step ram phys s inp m0 (core (qs n)) /\ nth_fetch s inp n (wh_time (qs n)) /\
  (forall c, (c <= wh_time q0)%nat -> same (st c) (dr (fun _ => idle_bus) 0 c d0)) /\ same (st (wh_time (qs n))) (wh_dev (qs n)) /\
  forall j, (j < n)%nat -> (wh_time (qs j) < wh_time (qs (S j)))%nat /\ forall c, (wh_time (qs j) <= c <= wh_time (qs (S j)))%nat -> same (st c) (devs1 (qs j) c).
Proof.
  induction n as [|n IH]; intros In.
  - destruct whole_start as (Is & Nf & D1). split; [exact Is|]. split; [exact Nf|]. split; [exact D1|].
    split; [apply (D1 (wh_time q0)); apply le_n|]. intros j Hj. lia.
  - destruct IH as (Is & Nf & D1 & Sd & Dj); [intros j Hj; apply In; lia|]. change (qs (S n)) with (step1 (qs n)) in *.
    destruct (whole_step (qs n) Is Sd (In n ltac:(lia))) as (Is' & X0 & Dv). pose proof X0 as (_ & Lt & _).
    split; [exact Is'|]. split; [exact (nth_next s inp n _ _ _ Nf X0)|]. split; [exact D1|]. split.
    + apply (Dv (wh_time (step1 (qs n)))). lia.
    + intros j Hj. destruct (Nat.eq_dec j n) as [->|Ne]; [split; [exact Lt|exact Dv]|apply Dj; lia].
Qed.
Lemma C91_devices n : (forall j, (j < n)%nat -> stuck1 (qs j) = None) ->
  forall c, (c <= wh_time (qs n))%nat -> same (st c) (wh_devices X P dstep ddat dirq ram phys wait pin (boot_arch s) m0 d0 n c).
Proof.
  induction n as [|n IH]; intros In c Hc; [apply (C91_run 0 In); exact Hc|]. cbn [wh_devices]. cbv zeta.
  destruct (Nat.leb_spec c (wh_time (qs n))) as [H|H]; [apply IH; [intros j Hj; apply In; lia|exact H]|].
  destruct (C91_run (S n) In) as (_ & _ & _ & _ & Dj). apply (proj2 (Dj n ltac:(lia)) c). lia.
Qed.
(** C92.  At the first access to an address where nothing is, core and RAM stop for ever, and the devices run on. *)
Theorem C92_hang : (forall c, o_cyc (run s inp c) = true -> mapped (o_adr (run s inp c)) = false -> ack (inp c) = false) ->
  forall n v r, (forall j, (j < n)%nat -> stuck1 (qs j) = None) -> stuck1 (qs n) = Some (v, r) ->
  (wh_time (qs n) < v)%nat /\ request_starts s inp v /\ (forall c, (v <= c)%nat -> Sim.shows r (run s inp c) /\ ack (inp c) = false) /\
  (forall c w, (wh_time (qs n) < c)%nat -> ~ fetch_done s inp c w) /\ (forall c, (wh_time (qs n) <= c)%nat -> same (st c) (hung1 (qs n) v r c)) /\
  forall c z, (v <= c)%nat -> rm c z = (match tr1 (qs n) with Some (_, r') => if mapped (q_adr r') then snd (result1 (qs n)) else wh_mem (qs n) | None => snd (result1 (qs n)) end) z.
Proof. intros Un n v r In St. destruct (C91_run n In) as (Is & _ & _ & Sd & _). apply whole_stuck; assumption. Qed.
Lemma first_stuck n : stuck1 (qs n) <> None -> exists k, (forall j, (j < k)%nat -> stuck1 (qs j) = None) /\ stuck1 (qs k) <> None.
Proof.
  induction n as [n IH] using lt_wf_ind. intros H. assert (Q : forall k, (k <= n)%nat -> (exists j, (j < k)%nat /\ stuck1 (qs j) <> None) \/ forall j, (j < k)%nat -> stuck1 (qs j) = None).
  { induction k as [|k IHk]; intros Hk; [right; intros j Hj; lia|]. destruct IHk as [(j & Hj & Sj)|Hj]; [lia|left; exists j; split; [lia|exact Sj]|].
    destruct (stuck1 (qs k)) eqn:Sk; [left; exists k; split; [lia|congruence]|]. right. intros j Lj. destruct (Nat.eq_dec j k) as [->|Ne]; [exact Sk|apply Hj; lia]. }
  destruct (Q n (le_n _)) as [(j & Hj & Sj)|Hj]; [exact (IH j Hj Sj)|exists n; auto].
Qed.
Theorem C92_hang_iff : (forall c, o_cyc (run s inp c) = true -> mapped (o_adr (run s inp c)) = false -> ack (inp c) = false) ->
  (exists c, forall c' w, (c <= c')%nat -> ~ fetch_done s inp c' w) <-> exists n, stuck1 (qs n) <> None.
Proof.
  intros Un. split.
  - intros (c & Nf).
    assert (Q : forall k, (exists j, (j < k)%nat /\ stuck1 (qs j) <> None) \/ forall j, (j < k)%nat -> stuck1 (qs j) = None).
    { induction k as [|k [(j & Hj & Sj)|Hj]]; [right; intros j Hj; lia|left; exists j; split; [lia|exact Sj]|].
      destruct (stuck1 (qs k)) eqn:Sk; [left; exists k; split; [lia|congruence]|]. right. intros j Lj. destruct (Nat.eq_dec j k) as [->|Ne]; [exact Sk|apply Hj; lia]. }
    destruct (Q c) as [(j & _ & Sj)|Nst]; [exists j; exact Sj|exfalso]. destruct (C91_run c Nst) as (Is & _ & _ & _ & Dj).
    assert (G : forall n, (n <= c)%nat -> (n <= wh_time (qs n))%nat). { induction n as [|n IH]; intros Hn; [lia|]. specialize (IH ltac:(lia)). destruct (Dj n ltac:(lia)) as [L _]. lia. }
    unfold in_step, core in Is. destruct Is as (F & _). exact (Nf _ _ (G c (le_n _)) F).
  - intros (n & H). destruct (first_stuck n H) as (j & Hj & Sj). destruct (stuck1 (qs j)) as [[v r]|] eqn:E; [|contradiction].
    destruct (C92_hang Un j v r Hj E) as (_ & _ & _ & Nf & _). exists (S (wh_time (qs j))). intros c w Hc. apply Nf. lia.
Qed.
End Run.

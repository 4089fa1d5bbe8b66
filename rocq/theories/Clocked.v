(** * C89: how long a program runs, to the cycle

    A simulator of the instruction set that also keeps the clock: instruction by instruction it says in which cycle the fetch of the
    next one is acknowledged.  Nothing in /repo is modelled here beyond Cpu.v. *)
From Coq Require Import ZArith Lia Bool List.
From Verif Require Import Bits Ucode Cpu Isa Timed BitLemmas Wf Sym Blocks CsrBlocks DecodeOk Boundary Sim Main Obs PropsBus PropsInv Observe PropsIsa PropsFrame Latency Memory SocMem Crash IoMem SeqTest PowerUp Transparent IoTransparent Emulate.
Import ListNotations.
Open Scope Z_scope.

(** ** Specification *)
(** [wait t adr we]: how many cycles a request for the word address [adr] that appears in cycle [t] goes unanswered.  Word addresses
    that are not [mapped] may never be answered. *)
Definition latency := nat -> Z -> bool -> nat.
Definition answers_exactly (mapped : Z -> bool) (wait : latency) (s : state) (inp : nat -> input) : Prop :=
  forall t, request_starts s inp t -> let x := run s inp t in mapped (o_adr x) = true ->
  ack (inp (t + wait t (o_adr x) (o_we x))%nat) = true /\
  forall j, (j < wait t (o_adr x) (o_we x))%nat -> ack (inp (t + j)%nat) = false.
Definition everywhere : Z -> bool := fun _ => true.

(** The fetch of [w] from address [p] is acknowledged in cycle [t], and the registers are then [r]: the cycle in which the next
    fetch is requested.  [i1] and [i2]: an interrupt is enabled and requested in the first and in the second cycle after [t]. *)
Definition until (wait : latency) (t : nat) (r : Z -> Z) (p w : Z) (i1 i2 : bool) : nat :=
  if i1 then (t + 6)%nat else
  match decode w with
  | None | Some Ecall | Some Ebreak => (t + 6)%nat
  | Some i =>
    if is_csr i && i2 then (t + 7)%nat else
    if raise_at r p w then (t + match i with Csr _ _ _ _ => 7 | Branch _ _ _ _ => 10 | _ => 9 end)%nat else
    match i with
    | Lui _ _ => (t + 3)%nat
    | Auipc _ _ => (t + 5)%nat
    | Branch f rs1 rs2 _ => (t + if cmp f (r rs1) (r rs2) then 7 else 6)%nat
    | Load _ _ _ rs1 off => (t + 5 + wait (t + 5) (((r rs1 + off) mod 2 ^ 32) / 4)%Z false + 2)%nat
    | Store _ rs1 _ off => (t + 6 + wait (t + 6) (((r rs1 + off) mod 2 ^ 32) / 4)%Z true + 2)%nat
    | OpImm f _ _ n => if is_shift f then (t + if (n =? 0)%Z then 8 else 6 + 2 * Z.to_nat n)%nat else (t + 3)%nat
    | OpReg f _ _ rs2 =>
        let n := r rs2 mod 32 in
        if is_shift f then (t + if (n =? 0)%Z then 9 else 6 + 2 * Z.to_nat n)%nat else (t + 3)%nat
    | Fence | Wfi => (t + 3)%nat
    | Csr f rd g n =>
        if ro_zero n then (t + 5)%nat else
        match f with
        | CSRRW => (t + if (rd =? 0)%Z then 5 else 6)%nat
        | CSRRS => (t + if csr_writes f g then 8 else 6)%nat
        | CSRRC => (t + if csr_writes f g then 9 else 6)%nat
        end
    | _ => (t + 6)%nat (* Jal, Jalr, Mret *)
    end
  end.

(** ** One instruction *)
Section One.
Variables (mapped : Z -> bool) (wait : latency) (s : state) (inp : nat -> input).
Hypothesis (K : ok s inp) (An : answers_exactly mapped wait s inp).
Lemma exact_ack t : request_starts s inp t -> mapped (o_adr (run s inp t)) = true -> let n := wait t (o_adr (run s inp t)) (o_we (run s inp t)) in
  ack (inp (t + n)%nat) = true /\ o_cyc (run s inp (t + n)) = true /\
  machine s inp (t + n) = machine s inp t /\ forall j, (j < n)%nat -> ack (inp (t + j)%nat) = false.
Proof.
  intros Hs Hm n. destruct (An t Hs Hm) as [A N]. fold n in A, N. destruct Hs as [C _].
  assert (G : forall k, (k <= n)%nat -> o_cyc (run s inp (t + k)) = true /\ machine s inp (t + k) = machine s inp t).
  { induction k as [|k IH]; intros H; [rewrite Nat.add_0_r; auto|]. destruct IH as [I1 I2]; [lia|]. rewrite Nat.add_succ_r. pose proof (N k ltac:(lia)) as B. split.
    - apply (C05_request_held s inp K _ I1 B).
    - rewrite machine_noack; [exact I2|rewrite B; apply andb_false_r]. }
  destruct (G n (le_n n)). auto.
Qed.
(** The transfer after the one completed in cycle [t]. *)
Lemma exact_next t : o_cyc (run s inp t) = true -> ack (inp t) = true ->
  let d := fst (delay_after (irqs inp) (machine s inp t) (t, dat_r (inp t))) in
  let q := request (machine s inp (S t)) in mapped (q_adr q) = true ->
  let u := (t + 1 + d + wait (t + 1 + d)%nat (q_adr q) (q_we q))%nat in
  o_cyc (run s inp u) = true /\ ack (inp u) = true /\ machine s inp u = machine s inp (S t) /\
  forall v, (t < v < u)%nat -> o_cyc (run s inp v) && ack (inp v) = false.
Proof.
  intros C A d q Hm. destruct (next_request s inp K t C A) as [Q R]. fold d in Q, R.
  pose proof (delay_bound (irqs inp) (machine s inp t) t (dat_r (inp t))) as B. fold d in B.
  assert (Hs : request_starts s inp (t + 1 + d)). { split; [exact R|]. replace (t + 1 + d)%nat with (S (t + 1 + (d - 1))) by lia. apply Q. lia. }
  assert (M0 : machine s inp (t + 1 + d) = machine s inp (S t)).
  { assert (M : forall j, (j <= d)%nat -> machine s inp (S t + j) = machine s inp (S t)).
    { induction j as [|j IH]; intros Hj; [rewrite Nat.add_0_r; reflexivity|]. rewrite Nat.add_succ_r, machine_noack; [apply IH; lia|].
      replace (S t + j)%nat with (t + 1 + j)%nat by lia. rewrite Q by lia. reflexivity. }
    replace (t + 1 + d)%nat with (S t + d)%nat by lia. apply M. lia. }
  pose proof (bus_shows s inp K _ R) as Sh. rewrite M0 in Sh. destruct (exact_ack _ Hs) as (Aa & Ca & Ma & Na); [rewrite (sh_adr _ _ Sh); exact Hm|].
  rewrite (sh_adr _ _ Sh), (sh_we _ _ Sh) in Aa, Ca, Ma, Na. fold q in Aa, Ca, Ma, Na. intros u.
  split; [exact Ca|]. split; [exact Aa|]. split; [rewrite <- M0; exact Ma|].
  intros v Hv. destruct (Nat.lt_ge_cases v (t + 1 + d)) as [L|L].
  - replace v with (t + 1 + (v - t - 1))%nat by lia. rewrite Q by lia. reflexivity.
  - replace v with (t + 1 + d + (v - (t + 1 + d)))%nat by lia. rewrite Na by (unfold u in Hv; lia). apply andb_false_r.
Qed.

(** What [until] says is what the timed machine of Timed.v does. *)
Lemma until_simple t r a w a' i3 i1 i2 : (forall k, 0 <= k < 32 -> r k = rd_x a k) ->
  fetched SENTINEL a w i1 i2 i3 = Fetching a' ->
  until wait t r (pc a) w (int_enabled a && i1) (int_enabled a && i2) = (t + 1 + fst (fetch_delay a w i1 i2))%nat.
Proof.
  intros R F. unfold until, fetched, fetch_delay in *. destruct (int_enabled a && i1); [cbn [trap_delay fst]; lia|].
  destruct (decode w) as [i|] eqn:D; [|cbn [trap_delay fst]; lia]. pose proof (decode_regs w i D) as Rg.
  unfold raise_at. rewrite D.
  destruct i as [rd v|rd v|rd off|rd rs1 off|c rs1 rs2 off|sz sg rd rs1 off|sz rs1 rs2 off|f rd rs1 n|f rd rs1 rs2| | | | | |f rd g n]; cbn [is_csr andb] in *; cbn [exec exec_delay] in *.
  - cbn [fst]. lia.
  - cbn [fst]. lia.
  - unfold jump_delay, target_ok. destruct (_ =? 0); cbn [negb trap_delay fst]; lia.
  - rewrite R by tauto. unfold jump_delay, target_ok. destruct (_ =? 0); cbn [negb trap_delay fst]; lia.
  - rewrite !R by tauto. unfold target_ok. destruct (cmp _ _ _); cbn [andb]; [|cbn [fst]; lia]. destruct (_ =? 0); cbn [negb trap_delay fst]; lia.
  - rewrite R by tauto. unfold aligned in *. destruct (_ =? 0); [discriminate|]. cbn [negb trap_delay fst]. lia.
  - rewrite R by tauto. unfold aligned in *. destruct (_ =? 0); [discriminate|]. cbn [negb trap_delay fst]. lia.
  - destruct (is_shift f); [|cbn [fst]; lia]. destruct (n =? 0); cbn [fst]; lia.
  - rewrite R by tauto. cbv zeta. destruct (is_shift f); [|cbn [fst]; lia]. destruct (_ =? 0); cbn [fst]; lia.
  - cbn [fst]; lia.
  - cbn [trap_delay fst]; lia.
  - cbn [trap_delay fst]; lia.
  - cbn [fst]; lia.
  - cbn [fst]; lia.
  - destruct (int_enabled a && i2); [cbn [trap_delay fst]; lia|]. pose proof (csr_read_known a false n) as Kn.
    destruct (csr_read a false n) as [v|].
    + rewrite <- Kn. cbn [negb orb]. destruct (csr_writes f g && csr_read_only n); [cbn [trap_delay fst]; lia|].
      destruct (ro_zero n); [cbn [fst]; lia|]. destruct f; [destruct (rd =? 0)|destruct (csr_writes _ _)|destruct (csr_writes _ _)]; cbn [fst]; lia.
    + rewrite <- Kn. cbn [negb orb trap_delay fst]. lia.
Qed.
Lemma until_access t r a w q k i3 i1 i2 : (forall k, 0 <= k < 32 -> r k = rd_x a k) ->
  fetched SENTINEL a w i1 i2 i3 = Accessing q k ->
  let d := fst (fetch_delay a w i1 i2) in
  until wait t r (pc a) w (int_enabled a && i1) (int_enabled a && i2) = (t + 1 + d + wait (t + 1 + d)%nat (q_adr q) (q_we q) + 2)%nat.
Proof.
  intros R F. unfold until, fetched, fetch_delay in *. destruct (int_enabled a && i1); [discriminate|].
  destruct (decode w) as [i|] eqn:D; [|discriminate]. pose proof (decode_regs w i D) as Rg.
  unfold raise_at. rewrite D. destruct (is_csr i && (int_enabled a && i2)) eqn:Ci; [discriminate|].
  destruct i as [rd v|rd v|rd off|rd rs1 off|c rs1 rs2 off|sz sg rd rs1 off|sz rs1 rs2 off|f rd rs1 n|f rd rs1 rs2| | | | | |f rd g n]; cbn [exec exec_delay] in *.
  all: try (exfalso; revert F; repeat match goal with |- context[if ?b then _ else _] => destruct b | |- context[match ?b with _ => _ end] => destruct b end; discriminate).
  - cbv zeta in *. rewrite R by tauto. unfold aligned in *. destruct (_ =? 0); [|discriminate]. cbn [negb fst]. injection F as <- _. cbn [q_adr q_we].
    replace (t + 1 + 4)%nat with (t + 5)%nat by lia. reflexivity.
  - cbv zeta in *. rewrite R by tauto. unfold aligned in *. destruct (_ =? 0); [|discriminate]. cbn [negb fst]. injection F as <- _. cbn [q_adr q_we].
    replace (t + 1 + 5)%nat with (t + 6)%nat by lia. reflexivity.
Qed.
Lemma clocked_next t a w : fetch_done s inp t w -> machine s inp t = Fetching a ->
  let f := fetched SENTINEL a w (irq (inp (t + 1)%nat)) (irq (inp (t + 2)%nat)) (irq (inp (t + 3)%nat)) in
  match f with
  | Fetching a' => mapped (pc a' / 4) = true
  | Accessing r k => mapped (q_adr r) = true /\ forall d, mapped (pc (k d) / 4) = true
  end ->
  exists t', executes s inp t t' w /\
  let x := run s inp (S t) in let y := run s inp (S t') in let en := mie_of x && meie_of x in
  let u := until wait t (x_of x) (pc_of x) w (en && irq (inp (t + 1)%nat)) (en && irq (inp (t + 2)%nat)) in
  t' = (u + wait u (pc_of y / 4)%Z false)%nat /\
  match f with Fetching _ => no_data s inp t t' | Accessing r _ => one_data s inp t t' (u - 2) /\ Sim.shows r (run s inp (u - 2)) end.
Proof.
  intros F M. pose proof F as (C & U & A & <-). destruct (C02_registers_match_reference s inp K t _ F) as (a0 & M0 & Rx & Rp & Ri & _ & Re & _).
  rewrite M in M0. injection M0 as <-.
  pose proof (exact_next t C A) as P. cbv zeta in P. rewrite (machine_ack s inp t C A), M in P. cbn [complete delay_after] in P. unfold irqs in P.
  assert (En : mie_of (run s inp (S t)) && meie_of (run s inp (S t)) = int_enabled a) by (unfold int_enabled; rewrite Ri, Re; reflexivity).
  cbv zeta. rewrite En, Rp. clear En.
  destruct (fetched SENTINEL a (dat_r (inp t)) _ _ _) as [a'|r k] eqn:Ft; intros Hm.
  - rewrite (until_simple t _ a _ a' _ _ _ Rx Ft). cbn [request q_adr q_we] in P. destruct (P Hm) as (Cu & Au & Mu & Nu). clear P.
    set (u := (t + 1 + _ + _)%nat) in Cu, Au, Mu, Nu. exists u.
    pose proof (fetch_at s inp K u a' Cu Au Mu) as Fu. split; [|split; [|exact Nu]].
    + split; [exact F|]. split; [unfold u; lia|]. split; [eexists; exact Fu|]. intros v w' Hv. apply no_fetch, Nu. lia.
    + destruct (C02_registers_match_reference s inp K u _ Fu) as (b & Mb & _ & Pb & _). rewrite Mu in Mb. injection Mb as <-.
      cbv zeta. rewrite Pb. reflexivity.
  - destruct Hm as [Hm1 Hm2]. pose proof (until_access t (x_of (run s inp (S t))) a _ r k _ _ _ Rx Ft) as Hu. cbv zeta in Hu. rewrite Hu. clear Hu.
    cbn [request] in P. destruct (P Hm1) as (Cu & Au & Mu & Nu). clear P. set (u := (t + 1 + _ + _)%nat) in Cu, Au, Mu, Nu.
    pose proof (exact_next u Cu Au) as P2. cbv zeta in P2. rewrite (machine_ack s inp u Cu Au), Mu in P2. cbn [complete delay_after fst request q_adr q_we] in P2.
    replace (u + 1 + 1)%nat with (u + 2)%nat in P2 by lia. destruct (P2 (Hm2 _)) as (Cx & Ax & Mx & Nx). clear P2. set (x := (u + 2 + _)%nat) in Cx, Ax, Mx, Nx. exists x.
    pose proof (fetch_at s inp K x _ Cx Ax Mx) as Fx.
    assert (Uf : u_fetch (s_u (run s inp u)) = false) by (pose proof (fetch_iff s inp K u Cu) as Q; rewrite Mu in Q; exact Q).
    split; [|split; [|split]].
    + split; [exact F|]. split; [unfold x, u; lia|]. split; [eexists; exact Fx|].
      intros v w' Hv. destruct (Nat.lt_total v u) as [L|[->|L]]; [apply no_fetch, Nu; lia| |apply no_fetch, Nx; lia].
      intros (_ & Uf' & _). congruence.
    + destruct (C02_registers_match_reference s inp K x _ Fx) as (b & Mb & _ & Pb & _). rewrite Mx in Mb. injection Mb as <-.
      rewrite Pb. reflexivity.
    + fold u. replace (u + 2 - 2)%nat with u by lia. split; [unfold x, u; lia|]. split; [repeat split; assumption|].
      intros v Hv Ne. destruct (Nat.lt_total v u) as [L|[L|L]]; [apply Nu; lia|contradiction|apply Nx; lia].
    + fold u. replace (u + 2 - 2)%nat with u by lia. pose proof (bus_shows s inp K u Cu) as Sh. rewrite Mu in Sh. exact Sh.
Qed.
Lemma clocked_first : mapped 0 = true -> exists w, fetch_done s inp (5 + wait 5%nat 0%Z false) w /\ forall v w', (v < 5 + wait 5%nat 0%Z false)%nat -> ~ fetch_done s inp v w'.
Proof.
  intros Hm. assert (Z : forall j, (j < 5)%nat -> o_cyc (run s inp j) = false).
  { intros j Hj. rewrite (timed_cyc s inp K). unfold t_cyc. pose proof (idle_count s inp 0 5 eq_refl j ltac:(lia)) as I. cbn [Nat.add] in I. rewrite I. destruct (5 - j)%nat eqn:E; [lia|reflexivity]. }
  destruct (C08_never_hangs s inp K) as [C5 _]. assert (Hs : request_starts s inp 5) by (split; [exact C5|apply (Z 4%nat); lia]).
  assert (M5 : forall j, (j <= 5)%nat -> machine s inp j = machine s inp 0).
  { induction j as [|j IH]; intros Hj; [reflexivity|]. rewrite machine_noack; [apply IH; lia|]. rewrite Z by lia. reflexivity. }
  pose proof (bus_shows s inp K _ C5) as Sh. rewrite (M5 5%nat) in Sh by lia. change (machine s inp 0) with (Fetching (boot_arch s)) in Sh.
  pose proof (exact_ack 5 Hs) as G. rewrite (sh_adr _ _ Sh) in G at 1. destruct (G Hm) as (An' & Cn & Mn & Fn). clear G. rewrite (sh_adr _ _ Sh), (sh_we _ _ Sh) in An', Cn, Mn, Fn.
  change (q_adr (request (Fetching (boot_arch s)))) with 0 in *. change (q_we (request (Fetching (boot_arch s)))) with false in *.
  eexists. split.
  - rewrite (M5 5%nat) in Mn by lia. eapply fetch_at; [exact K|exact Cn|exact An'|exact Mn].
  - intros v w' Hv. apply no_fetch. destruct (Nat.lt_ge_cases v 5) as [L|L]; [rewrite Z by lia; reflexivity|]. replace v with (5 + (v - 5))%nat by lia. rewrite Fn by lia. apply andb_false_r.
Qed.
End One.


Lemma executes_same s inp t t1 t2 w1 w2 : executes s inp t t1 w1 -> executes s inp t t2 w2 -> t1 = t2.
Proof.
  intros (_ & L1 & (v1 & F1) & N1) (_ & L2 & (v2 & F2) & N2). destruct (Nat.lt_total t1 t2) as [H|[H|H]]; [|exact H|].
  - exfalso. apply (N2 t1 v1); [lia|exact F1].
  - exfalso. apply (N1 t2 v2); [lia|exact F2].
Qed.

(** C89, one instruction.  The cycle of the next fetch is determined by the instruction, the registers and PC it starts from, the
    interrupt line in the two cycles after its fetch, how long the slaves take, and the address of the next instruction; a load or
    store has its transfer two cycles before the next fetch is requested. *)
Theorem C89_run_time : forall wait s inp, ok s inp -> answers_exactly everywhere wait s inp ->
  (exists w, fetch_done s inp (5 + wait 5%nat 0%Z false) w) /\ (forall v w, (v < 5 + wait 5%nat 0%Z false)%nat -> ~ fetch_done s inp v w) /\
  forall t w, fetch_done s inp t w -> exists t', executes s inp t t' w /\
  let x := run s inp (S t) in let y := run s inp (S t') in let en := mie_of x && meie_of x in
  let u := until wait t (x_of x) (pc_of x) w (en && irq (inp (t + 1)%nat)) (en && irq (inp (t + 2)%nat)) in
  t' = (u + wait u (pc_of y / 4)%Z false)%nat /\
  (no_data s inp t t' \/ one_data s inp t t' (u - 2)).
Proof.
  intros wait s inp K An. destruct (clocked_first everywhere wait s inp K An eq_refl) as (w0 & F0 & N0). split; [exists w0; exact F0|]. split; [exact N0|].
  intros t w F. destruct (fetch_machine s inp K t w F) as [a M].
  destruct (clocked_next everywhere wait s inp K An t a w F M) as (t' & X & E & D); [destruct (fetched _ _ _ _ _ _); repeat split|].
  exists t'. split; [exact X|]. cbv zeta in *. split; [exact E|].
  destruct (fetched _ _ _ _ _ _) as [a'|r k]; [left; exact D|right; apply D].
Qed.
(** ** Whole programs *)
Lemma until_ext wait t r r' p w i1 i2 : (forall i, 0 <= i < 32 -> r' i = r i) -> until wait t r' p w i1 i2 = until wait t r p w i1 i2.
Proof.
  intros H. unfold until. rewrite (raise_at_ext r r' p w H). destruct (decode w) as [i|] eqn:D; [|reflexivity]. pose proof (decode_regs w i D) as R.
  destruct i; try reflexivity; rewrite ?(H rs1), ?(H rs2) by tauto; reflexivity.
Qed.
Lemma fetches_const s inp t n : (forall u w, (t <= u < t + n)%nat -> ~ fetch_done s inp u w) -> fetches s inp (t + n) = fetches s inp t.
Proof.
  induction n as [|n IH]; intros H; [rewrite Nat.add_0_r; reflexivity|]. rewrite Nat.add_succ_r, fetches_S, IH by (intros u w Hu; apply H; lia).
  destruct (_ && _) eqn:E; [|lia]. apply is_fetch in E. destruct E as [w E]. exfalso. apply (H (t + n)%nat w); [lia|exact E].
Qed.
Lemma nth_first s inp t w : fetch_done s inp t w -> (forall u w', (u < t)%nat -> ~ fetch_done s inp u w') -> nth_fetch s inp 0 t.
Proof. intros F N. split; [exists w; exact F|]. change t with (0 + t)%nat. rewrite fetches_const; [reflexivity|]. intros u w' Hu. apply N. lia. Qed.
Lemma nth_next s inp n t t' w : nth_fetch s inp n t -> executes s inp t t' w -> nth_fetch s inp (S n) t'.
Proof.
  intros [_ Cn] (F & L & F' & N). split; [exact F'|]. replace t' with (S t + (t' - S t))%nat by lia. rewrite fetches_const by (intros u w2 Hu; apply (N u w2); lia).
  rewrite fetches_S, Cn. destruct F as (F1 & F2 & F3 & _). rewrite F1, F2, F3. cbn [andb]. lia.
Qed.
Section Mem.
Variable phys : Z -> Z.
(** The clock, the registers and the memory: one instruction. *)
Definition clock_step (wait : latency) (line : nat -> bool) (q : nat * (arch * (Z -> Z))) : nat * (arch * (Z -> Z)) :=
  let (t, am) := q in let (a, m) := am in
  let am' := flat_step phys am (line (t + 1)%nat) (line (t + 2)%nat) (line (t + 3)%nat) in
  let en := mie a && meie a in
  let u := until wait t (rd_x a) (pc a) (peek phys m (pc a) 4) (en && line (t + 1)%nat) (en && line (t + 2)%nat) in
  ((u + wait u (pc (fst am') / 4)%Z false)%nat, am').
Definition clocked (wait : latency) (line : nat -> bool) (a0 : arch) (m0 : Z -> Z) (n : nat) : nat * (arch * (Z -> Z)) :=
  Nat.iter n (clock_step wait line) ((5 + wait 5%nat 0%Z false)%nat, (a0, m0)).

Lemma clocked_flat wait s inp m0 : ok s inp -> memory_slave phys s inp m0 -> answers_exactly everywhere wait s inp ->
  forall n, nth_fetch s inp n (fst (clocked wait (irqs inp) (boot_arch s) m0 n)) /\
  snd (clocked wait (irqs inp) (boot_arch s) m0 n) = flat_at phys s inp m0 (fst (clocked wait (irqs inp) (boot_arch s) m0 n)).
Proof.
  intros K Sl An. destruct (C89_run_time wait s inp K An) as (F0 & N0 & St).
  induction n as [|n [IH E]].
  - unfold clocked. cbn [Nat.iter nat_rect fst snd]. set (t0 := (5 + wait 5%nat 0%Z false)%nat) in *. split.
    + destruct F0 as [w F0]. apply (nth_first s inp t0 w F0). exact N0.
    + change (boot_arch s, m0) with (flat_at phys s inp m0 0). symmetry. apply (flat_const phys s inp m0 0). intros u w Hu. apply N0. lia.
  - set (q := clocked wait (irqs inp) (boot_arch s) m0 n) in *. destruct q as [t am] eqn:Eq. cbn [fst snd] in *.
    change (clocked wait (irqs inp) (boot_arch s) m0 (S n)) with (clock_step wait (irqs inp) (clocked wait (irqs inp) (boot_arch s) m0 n)).
    fold q. rewrite Eq. unfold clock_step. pose proof IH as [[w F] Cn].
    destruct (St t w F) as (t' & X & T & _). cbv zeta in T.
    pose proof (flat_exec phys s inp m0 t t' w X) as Fx. pose proof X as (_ & L & (w' & F') & N).
    pose proof (C33_flat_memory phys s inp m0 K Sl t w F) as P. pose proof (C33_flat_memory phys s inp m0 K Sl t' w' F') as P'.
    rewrite Fx, <- E in P'. rewrite <- E in P. unfold irqs. destruct am as [a m]. cbv zeta in P, P'.
    destruct (flat_step phys (a, m) _ _ _) as [a' m'] eqn:Fs.
    destruct P as (Pw & _ & Px & Pp & Pi & _ & Pe & _). destruct P' as (_ & _ & _ & Pp' & _). cbn [fst snd].
    rewrite Pi, Pe, Pp, Pp', (until_ext wait t (rd_x a) _ (pc a) w) in T by (intros; apply Px; assumption). rewrite Pw in T. rewrite <- T. split.
    + apply (nth_next s inp n t t' w IH X).
    + rewrite Fx, <- E, Fs. reflexivity.
Qed.
End Mem.

(** C89, whole programs.  The [n]-th instruction fetch is acknowledged in the cycle the simulator says, and reads the word the
    simulator's memory has at its PC; the registers, the CSRs and the memory are then the simulator's. *)
Theorem C89_simulator : forall phys wait s inp m0, ok s inp -> memory_slave phys s inp m0 -> answers_exactly everywhere wait s inp ->
  forall n, let '(t, (a, m)) := clocked phys wait (fun c => irq (inp c)) (boot_arch s) m0 n in
  nth_fetch s inp n t /\ fetch_done s inp t (peek phys m (pc a) 4) /\ (forall z, slave_mem phys s inp m0 t z = m z) /\
  let x := run s inp (S t) in
  (forall r, 0 <= r < 32 -> x_of x r = rd_x a r) /\ pc_of x = pc a /\
  mie_of x = mie a /\ mpie_of x = mpie a /\ meie_of x = meie a /\
  mtvec_of x = mtvec a /\ mscratch_of x = mscratch a /\ mepc_of x = mepc a /\ mcause_of x = mcause a.
Proof.
  intros phys wait s inp m0 K Sl An n. change (fun c => irq (inp c)) with (irqs inp). destruct (clocked_flat phys wait s inp m0 K Sl An n) as [Nf E].
  destruct (clocked phys wait (irqs inp) (boot_arch s) m0 n) as [t [a m]]. cbn [fst snd] in *. split; [exact Nf|].
  destruct Nf as [[w F] _]. pose proof (C33_flat_memory phys s inp m0 K Sl t w F) as P. rewrite <- E in P. cbv zeta in P. destruct P as (-> & Pm & P).
  split; [exact F|]. split; [intros z; symmetry; apply Pm|exact P].
Qed.

(** ** Programs that use devices *)
(** The core with RAM and devices.  [line] is the interrupt line and [bus] what devices (and anything else that is not [ram]) put
    on the data bus, both by the cycle; the simulator computes the cycles in which they are looked at. *)
Section Io.
Variables (ram : Z -> bool) (phys : Z -> Z) (wait : latency) (line : nat -> bool) (bus : nat -> Z).
Definition word_at (q : nat * (arch * (Z -> Z))) : Z :=
  let '(t, (a, m)) := q in if ram (pc a / 4) then peek phys m (pc a) 4 else bus t.
(** When the next fetch is requested. *)
Definition next_at (q : nat * (arch * (Z -> Z))) : nat :=
  let '(t, (a, m)) := q in let en := mie a && meie a in
  until wait t (rd_x a) (pc a) (word_at q) (en && line (t + 1)%nat) (en && line (t + 2)%nat).
Definition io_clock_step (q : nat * (arch * (Z -> Z))) : nat * (arch * (Z -> Z)) :=
  let '(t, am) := q in let u := next_at q in
  let am' := io_step ram phys am {| e_int := fun i => line (t + i)%nat; e_code := bus t; e_data := bus (u - 2)%nat |} in
  ((u + wait u (pc (fst am') / 4)%Z false)%nat, am').
Definition io_clocked (a0 : arch) (m0 : Z -> Z) (n : nat) : nat * (arch * (Z -> Z)) :=
  Nat.iter n io_clock_step ((5 + wait 5%nat 0%Z false)%nat, (a0, m0)).
(** The instruction about to be executed is in mapped memory, and so is what it loads or stores. *)
Definition reaches (mapped : Z -> bool) (q : nat * (arch * (Z -> Z))) : Prop :=
  let a := fst (snd q) in mapped (pc a / 4) = true /\
  match decode (word_at q) with
  | Some (Load _ _ _ rs1 off) | Some (Store _ rs1 _ off) => mapped (((rd_x a rs1 + off) mod 2 ^ 32) / 4) = true
  | _ => True
  end.

(** The machine with RAM and devices goes where the core goes. *)
Lemma step_fetching a m e a' : fetched SENTINEL a (if ram (pc a / 4) then peek phys m (pc a) 4 else e_code e) (e_int e 1%nat) (e_int e 2%nat) (e_int e 3%nat) = Fetching a' ->
  fst (io_step ram phys (a, m) e) = a'.
Proof.
  unfold io_step, fetched. cbv zeta. destruct (int_enabled a && e_int e 1%nat); [intros H; injection H as <-; reflexivity|].
  destruct (decode _) as [i|]; [|intros H; injection H as <-; reflexivity]. destruct (is_csr i && _); [intros H; injection H as <-; reflexivity|].
  destruct i; try (intros ->; reflexivity); cbn [exec]; cbv zeta; destruct (aligned _ _); intros H; try discriminate; injection H as <-; reflexivity.
Qed.
Lemma step_accessing a m e r k : let w := if ram (pc a / 4) then peek phys m (pc a) 4 else e_code e in
  fetched SENTINEL a w (e_int e 1%nat) (e_int e 2%nat) (e_int e 3%nat) = Accessing r k ->
  (forall d, pc (k d) = pc (fst (io_step ram phys (a, m) e))) /\
  match decode w with Some (Load _ _ _ rs1 off) | Some (Store _ rs1 _ off) => q_adr r = ((rd_x a rs1 + off) mod 2 ^ 32) / 4 | _ => False end.
Proof.
  unfold io_step, fetched. cbv zeta. set (w := if ram _ then _ else _). destruct (int_enabled a && e_int e 1%nat); [discriminate|].
  destruct (decode w) as [i|]; [|discriminate]. destruct (is_csr i && _); [discriminate|].
  destruct i; cbn [exec]; cbv zeta.
  all: try (intros H; exfalso; revert H; repeat match goal with |- context[if ?b then _ else _] => destruct b | |- context[match ?b with _ => _ end] => destruct b end; discriminate).
  - destruct (aligned _ _); [|discriminate]. intros H. injection H as <- <-. cbn [q_adr]. split; [intros d; cbn [fst]; unfold advance, wr_x; destruct (rd =? 0); reflexivity|reflexivity].
  - destruct (aligned _ _); [|discriminate]. intros H. injection H as <- <-. cbn [q_adr]. split; [intros d; reflexivity|reflexivity].
Qed.
Lemma peek_ext m m' b k : (forall z, m' z = m z) -> peek phys m' b k = peek phys m b k.
Proof. intros H. revert b. induction k as [|k IH]; intros b; [reflexivity|]. cbn [peek]. rewrite H, IH. reflexivity. Qed.
Lemma poke_ext m m' b k v : (forall z, m' z = m z) -> forall z, poke phys m' b k v z = poke phys m b k v z.
Proof. revert m m' b v. induction k as [|k IH]; intros m m' b v H; [exact H|]. cbn [poke]. apply IH. intros z. destruct (_ =? _); [reflexivity|apply H]. Qed.
Lemma io_step_ext a m m' e e' : (forall z, m' z = m z) -> (forall i, e_int e' i = e_int e i) -> e_code e' = e_code e ->
  (match decode (if ram (pc a / 4) then peek phys m (pc a) 4 else e_code e) with
   | Some (Load sz _ _ rs1 off) => aligned sz ((rd_x a rs1 + off) mod 2 ^ 32) = true -> int_enabled a && e_int e 1%nat = false -> e_data e' = e_data e | _ => True end) ->
  fst (io_step ram phys (a, m') e') = fst (io_step ram phys (a, m) e) /\ forall z, snd (io_step ram phys (a, m') e') z = snd (io_step ram phys (a, m) e) z.
Proof.
  intros Hm Hi Hc Hd. unfold io_step. rewrite (peek_ext m m') by exact Hm. rewrite Hc, !Hi. cbv zeta.
  destruct (int_enabled a && e_int e 1%nat); [split; [reflexivity|exact Hm]|].
  destruct (decode _) as [i|]; [|split; [reflexivity|exact Hm]]. destruct (is_csr i && _); [split; [reflexivity|exact Hm]|].
  destruct i; try (destruct (exec _ _ _ _); split; [reflexivity|exact Hm]); try (split; [reflexivity|exact Hm]).
  - destruct (aligned _ _) eqn:Al; [|split; [reflexivity|exact Hm]]. rewrite (peek_ext m m') by exact Hm. rewrite Hd by auto. split; [reflexivity|exact Hm].
  - destruct (aligned _ _); [|split; [reflexivity|exact Hm]]. cbn [fst snd]. split; [reflexivity|]. destruct (ram _); [apply poke_ext, Hm|exact Hm].
Qed.
End Io.

Section IoRun.
Variables (mapped ram : Z -> bool) (phys : Z -> Z) (wait : latency) (s : state) (inp : nat -> input) (m0 : Z -> Z).
Hypothesis (K : ok s inp) (Sl : ram_slave ram phys s inp m0) (An : answers_exactly mapped wait s inp).
Local Notation bus := (fun c => dat_r (inp c)).
Local Notation line := (fun c => irq (inp c)).
Local Notation sim n := (io_clocked ram phys wait line bus (boot_arch s) m0 n).
Local Notation rm := (ram_mem ram phys s inp m0).
(** The core at its fetch in cycle [t] is the simulator's. *)
Definition in_step (q : nat * (arch * (Z -> Z))) : Prop :=
  let '(t, (a, m)) := q in fetch_done s inp t (word_at ram phys bus q) /\ machine s inp t = Fetching a /\ forall z, m z = rm t z.
Lemma io_step_sim q : in_step q -> reaches ram phys bus mapped q ->
  let q' := io_clock_step ram phys wait line bus q in mapped (pc (fst (snd q')) / 4) = true ->
  in_step q' /\ executes s inp (fst q) (fst q') (word_at ram phys bus q) /\
  forall r k, fetched SENTINEL (fst (snd q)) (word_at ram phys bus q) (line (fst q + 1)%nat) (line (fst q + 2)%nat) (line (fst q + 3)%nat) = Accessing r k ->
  one_data s inp (fst q) (fst q') (next_at ram phys wait line bus q - 2) /\ Sim.shows r (run s inp (next_at ram phys wait line bus q - 2)).
Proof.
  destruct q as [t [a m]]. intros (F & M & Hm) (R1 & R2) q' Mp. set (w := word_at ram phys bus (t, (a, m))) in *. cbn [fst snd] in *.
  set (e := {| e_int := fun i => line (t + i)%nat; e_code := bus t; e_data := bus (next_at ram phys wait line bus (t, (a, m)) - 2)%nat |}).
  assert (Eq : q' = ((next_at ram phys wait line bus (t, (a, m)) + wait (next_at ram phys wait line bus (t, (a, m))) (pc (fst (io_step ram phys (a, m) e)) / 4)%Z false)%nat, io_step ram phys (a, m) e)) by reflexivity.
  set (u := next_at ram phys wait line bus (t, (a, m))) in *.
  assert (Mp' : mapped (pc (fst (io_step ram phys (a, m) e)) / 4) = true) by (rewrite Eq in Mp; exact Mp).
  assert (Ew : w = if ram (pc a / 4) then peek phys m (pc a) 4 else e_code e) by reflexivity.
  destruct (clocked_next mapped wait s inp K An t a w F M) as (t' & X & T & D).
  { destruct (fetched _ _ _ _ _ _) as [a'|r k] eqn:Ft.
    - rewrite <- (step_fetching ram phys a m e a' Ft). exact Mp'.
    - destruct (step_accessing ram phys a m e r k Ft) as [P1 P2]. rewrite <- Ew in P2. split.
      + destruct (decode w) as [i|]; [|contradiction]. destruct i; try contradiction; rewrite P2; exact R2.
      + intros d. rewrite P1. exact Mp'. }
  destruct (C02_registers_match_reference s inp K t _ F) as (a0 & M0 & Rx & Rp & Ri & _ & Re & _). rewrite M in M0. injection M0 as <-.
  cbv zeta in T. rewrite Ri, Re, Rp, (until_ext wait t (rd_x a)) in T by exact Rx.
  cbv zeta in D. rewrite Ri, Re, Rp, (until_ext wait t (rd_x a)) in D by exact Rx.
  change (until wait t (rd_x a) (pc a) w (mie a && meie a && irq (inp (t + 1)%nat)) (mie a && meie a && irq (inp (t + 2)%nat))) with u in T, D.
  destruct (io_exec ram phys s inp m0 K Sl t t' w X) as (b & m' & e' & Mb & Em & Ei & Ec & Ed & M' & Em').
  rewrite M in Mb. injection Mb as <-.
  destruct (io_step_ext ram phys a m' m e' e) as [Q1 Q2].
  - intros z. rewrite Hm, Em. reflexivity.
  - intros i. rewrite Ei. reflexivity.
  - rewrite Ec. destruct F as (_ & _ & _ & Dw). exact Dw.
  - assert (Ew' : (if ram (pc a / 4) then peek phys m' (pc a) 4 else e_code e') = w).
    { rewrite Ec. rewrite (peek_ext phys m m') by (intros z; rewrite Em, Hm; reflexivity). destruct (ram (pc a / 4)); [symmetry; exact Ew|reflexivity]. }
    rewrite Ew'. destruct (decode w) as [i|] eqn:Dw; [|exact I]. destruct i; try exact I. intros Al I1. rewrite Ei in I1. unfold fetched in D. rewrite I1, Dw in D. cbn [is_csr andb exec] in D. cbv zeta in D. rewrite Al in D.
    destruct D as [(Lu & Du & _) _]. rewrite (Ed _ Lu Du). reflexivity.
  - assert (Tt : t' = fst q').
    { rewrite Eq. cbn [fst]. rewrite T. destruct X as (_ & _ & (w1 & F1) & _). destruct (C02_registers_match_reference s inp K t' w1 F1) as (b & Mb & _ & Pb & _). rewrite M' in Mb. injection Mb as <-.
      rewrite Pb, Q1. reflexivity. }
    rewrite Tt in *. clear Tt t'. split; [|split; [exact X|]].
    + destruct q' as [t' [a' m2]]. cbn [fst] in *. pose proof (f_equal snd Eq) as Ea. cbn [snd] in Ea. assert (A1 : a' = fst (io_step ram phys (a, m) e)) by (rewrite <- Ea; reflexivity). assert (A2 : m2 = snd (io_step ram phys (a, m) e)) by (rewrite <- Ea; reflexivity).
      assert (Mn : machine s inp t' = Fetching a') by (rewrite M', A1, Q1; reflexivity). assert (Hn : forall z, m2 z = rm t' z) by (intros z; rewrite A2, Q2; apply Em').
      split; [|split; assumption]. destruct X as (_ & _ & (w1 & F1) & _). pose proof F1 as (C & U & A & Dw). repeat split; try assumption.
      unfold word_at. rewrite (code_word ram phys s inp m0 K Sl t' a' m2 C A Mn Hn) at 1. reflexivity.
    + intros r k Ft. unfold fetched in Ft, D. rewrite Ft in D. exact D.
Qed.
Lemma io_sim n : (forall j, (j < n)%nat -> reaches ram phys bus mapped (sim j)) -> mapped (pc (fst (snd (sim n))) / 4) = true ->
  in_step (sim n) /\ nth_fetch s inp n (fst (sim n)).
Proof.
  induction n as [|n IH]; intros R P.
  - change (mapped 0 = true) in P. destruct (clocked_first mapped wait s inp K An P) as (w & F & N).
    split; [|exact (nth_first s inp _ w F N)]. unfold in_step, io_clocked. cbn [Nat.iter nat_rect].
    set (t := (5 + wait 5%nat 0%Z false)%nat) in *. destruct (fetch_machine s inp K t w F) as [a M].
    destruct (io_tracks_past ram phys s inp m0 K Sl t) as (ev & _ & Tr). specialize (Tr t (le_n _)). unfold io_tracks in Tr. rewrite M in Tr.
    assert (Z0 : fetched_before s inp t = O).
    { assert (G : forall j, (j <= t)%nat -> fetched_before s inp j = O); [|apply G; lia]. induction j as [|j IH]; intros Hj; [reflexivity|]. unfold fetched_before. rewrite count_S. fold (fetched_before s inp j). rewrite IH by lia.
      destruct (_ && _ && _) eqn:Q; [|reflexivity]. apply andb_prop in Q. destruct Q as [Q U]. apply andb_prop in Q. destruct Q as [C A].
      destruct (N j (dat_r (inp j))); [lia|]. repeat split; assumption. }
    rewrite Z0 in Tr. cbn [io_run fst snd] in Tr. destruct Tr as [<- Tr]. split; [|split; [exact M|exact Tr]].
    pose proof F as (C & U & A & Dw). repeat split; try assumption. unfold word_at. apply (code_word ram phys s inp m0 K Sl t _ m0 C A M Tr).
  - change (sim (S n)) with (io_clock_step ram phys wait line bus (sim n)) in *.
    assert (Rn : reaches ram phys bus mapped (sim n)) by (apply R; lia).
    destruct IH as [Is Nf]; [intros j Hj; apply R; lia|exact (proj1 Rn)|]. destruct (io_step_sim (sim n) Is Rn P) as (Is' & X & _).
    split; [exact Is'|]. exact (nth_next s inp n _ _ _ Nf X).
Qed.
End IoRun.

(** C89, programs that use devices.  While the program stays in mapped memory, its [n]-th fetch is acknowledged in the cycle the
    simulator says; registers, CSRs and RAM are then the simulator's. *)
Theorem C89_device_simulator : forall mapped ram phys wait s inp m0, ok s inp -> ram_slave ram phys s inp m0 -> answers_exactly mapped wait s inp ->
  let bus := fun c => dat_r (inp c) in let sim := io_clocked ram phys wait (fun c => irq (inp c)) bus (boot_arch s) m0 in
  forall n, (forall j, (j < n)%nat -> reaches ram phys bus mapped (sim j)) ->
  let '(t, (a, m)) := sim n in mapped (pc a / 4) = true ->
  nth_fetch s inp n t /\ fetch_done s inp t (word_at ram phys bus (sim n)) /\ (forall z, ram_mem ram phys s inp m0 t z = m z) /\
  let x := run s inp (S t) in
  (forall r, 0 <= r < 32 -> x_of x r = rd_x a r) /\ pc_of x = pc a /\
  mie_of x = mie a /\ mpie_of x = mpie a /\ meie_of x = meie a /\
  mtvec_of x = mtvec a /\ mscratch_of x = mscratch a /\ mepc_of x = mepc a /\ mcause_of x = mcause a.
Proof.
  intros mapped ram phys wait s inp m0 K Sl An bus sim n R. destruct (sim n) as [t [a m]] eqn:E. intros P.
  destruct (io_sim mapped ram phys wait s inp m0 K Sl An n R) as [Is Nf]; [fold bus; fold sim; rewrite E; exact P|]. fold bus in Is, Nf. fold sim in Is, Nf. rewrite E in Is, Nf.
  destruct Is as (F & M & Hm). split; [exact Nf|]. split; [exact F|]. split; [intros z; symmetry; apply Hm|].
  destruct (C02_registers_match_reference s inp K t _ F) as (a0 & M0 & Q). rewrite M in M0. injection M0 as <-. exact Q.
Qed.
(** C89: and its loads and stores are on the bus in the cycles the simulator says, with the values it says. *)
Theorem C89_device_access : forall mapped ram phys wait s inp m0, ok s inp -> ram_slave ram phys s inp m0 -> answers_exactly mapped wait s inp ->
  let bus := fun c => dat_r (inp c) in let line := fun c => irq (inp c) in let sim := io_clocked ram phys wait line bus (boot_arch s) m0 in
  forall n, (forall j, (j <= n)%nat -> reaches ram phys bus mapped (sim j)) -> mapped (pc (fst (snd (sim (S n)))) / 4) = true ->
  let '(t, (a, m)) := sim n in let u := (next_at ram phys wait line bus (sim n) - 2)%nat in let b := run s inp u in
  mie a && meie a && line (t + 1)%nat = false ->
  match decode (word_at ram phys bus (sim n)) with
  | Some (Load sz _ _ rs1 off) => let ea := (rd_x a rs1 + off) mod 2 ^ 32 in ea mod bytes sz = 0 ->
      one_data s inp t (fst (sim (S n))) u /\ o_we b = false /\ o_adr b = ea / 4 /\
      forall i, 0 <= i -> Z.testbit (o_sel b) i = addressed ea (bytes sz) i
  | Some (Store sz rs1 rs2 off) => let ea := (rd_x a rs1 + off) mod 2 ^ 32 in ea mod bytes sz = 0 ->
      one_data s inp t (fst (sim (S n))) u /\ o_we b = true /\ o_adr b = ea / 4 /\
      (forall i, 0 <= i -> Z.testbit (o_sel b) i = addressed ea (bytes sz) i) /\
      forall i, 0 <= i < bytes sz -> byte (o_dat_w b) (ea mod 4 + i) = byte (rd_x a rs2) i
  | _ => True
  end.
Proof.
  intros mapped ram phys wait s inp m0 K Sl An bus line sim n R P. destruct (sim n) as [t [a m]] eqn:E. cbv zeta. intros Hi.
  assert (Rn : reaches ram phys bus mapped (sim n)) by (apply R; lia).
  destruct (io_sim mapped ram phys wait s inp m0 K Sl An n) as [Is Nf]; [intros j Hj; apply R; lia|exact (proj1 Rn)|].
  destruct (io_step_sim mapped ram phys wait s inp m0 K Sl An (io_clocked ram phys wait (fun c => irq (inp c)) (fun c => dat_r (inp c)) (boot_arch s) m0 n) Is Rn P) as (_ & X & D).
  change (io_clock_step ram phys wait (fun c => irq (inp c)) (fun c => dat_r (inp c)) (io_clocked ram phys wait (fun c => irq (inp c)) (fun c => dat_r (inp c)) (boot_arch s) m0 n)) with (sim (S n)) in X, D.
  fold bus in D, X, Is. fold line in D, X, Is. fold sim in D, X, Is. rewrite E in D, X, Is. cbn [fst snd] in D, X.
  set (w := word_at ram phys bus (t, (a, m))) in *. set (t' := fst (sim (S n))) in *. set (u := (next_at ram phys wait line bus (t, (a, m)) - 2)%nat) in *.
  destruct Is as (F & M & Hm). destruct (C02_registers_match_reference s inp K t _ F) as (a0 & M0 & Rx & Rp & Ri & _ & Re & _). rewrite M in M0. injection M0 as <-. cbv zeta in *.
  change (line (t + 1)%nat) with (irq (inp (t + 1)%nat)) in *.
  assert (Tk : csr_word w = false -> int_taken s inp t w = false).
  { intros Cw. unfold int_taken. cbv zeta. rewrite Ri, Re, Cw. cbn [andb]. rewrite orb_false_r. exact Hi. }
  assert (One : forall v, one_data s inp t t' v -> one_data s inp t t' u -> v = u).
  { intros v (Lv & (Cv & _ & Av) & _) (Lu & _ & Nu). destruct (Nat.eq_dec v u) as [->|Ne]; [reflexivity|]. specialize (Nu v Lv Ne). rewrite Cv, Av in Nu. discriminate. }
  destruct (decode w) as [i|] eqn:Dw; [|exact I]. destruct i; try exact I; intros Al; unfold csr_word in Tk; rewrite Dw in Tk; specialize (Tk eq_refl).
  - destruct (decode_regs w _ Dw) as (_ & Hs). unfold fetched in D. rewrite Dw in D. unfold int_enabled in D. rewrite Hi in D. cbn [is_csr andb exec] in D. cbv zeta in D.
    unfold aligned in D. rewrite Al in D. cbn [Z.eqb] in D. destruct (D _ _ eq_refl) as [Od _]. split; [exact Od|].
    rewrite <- Rx in Al by exact Hs. destruct (C13_load s inp K t t' w _ _ (conj X (conj eq_refl eq_refl)) Tk _ _ _ _ _ Dw Al) as (v & Ov & W & Ad & Se & _).
    rewrite (One v Ov Od) in *. rewrite Rx in Ad, Se by exact Hs. auto.
  - destruct (decode_regs w _ Dw) as (Hs & Hs2). unfold fetched in D. rewrite Dw in D. unfold int_enabled in D. rewrite Hi in D. cbn [is_csr andb exec] in D. cbv zeta in D.
    unfold aligned in D. rewrite Al in D. cbn [Z.eqb] in D. destruct (D _ _ eq_refl) as [Od _]. split; [exact Od|].
    rewrite <- Rx in Al by exact Hs. destruct (C12_store s inp K t t' w _ _ (conj X (conj eq_refl eq_refl)) Tk _ _ _ _ Dw Al) as (v & Ov & W & Ad & Se & Da & _).
    rewrite (One v Ov Od) in *. rewrite Rx in Ad, Se, Da by exact Hs. rewrite Rx in Da by exact Hs2. auto.
Qed.

(** ** The SoCs *)
(** C89 for the core with the SoC's memory, which answers every request after one cycle. *)
Lemma sys_answers k iw s m : fresh s -> mem_start m -> answers_exactly everywhere (fun _ _ _ => 1%nat) s (sys_inp k iw s m).
Proof.
  intros Hf Hm. pose proof (bus_ok_ok _ _ (sys_bus_ok k iw s m Hf Hm)) as K. pose proof (sys_two_cycle k iw s m Hf Hm) as Tw. intros t [C S0] x _.
  assert (A : ack (sys_inp k iw s m t) = false).
  { destruct t as [|u]; [rewrite (timed_cyc s _ K) in C; discriminate C|]. rewrite Tw, S0. rewrite andb_false_r. reflexivity. }
  split; [|intros j Hj; replace j with O by lia; rewrite Nat.add_0_r; exact A].
  rewrite Nat.add_1_r, Tw, C, A. destruct (C05_request_held s _ K t C A) as (H & _). rewrite H. reflexivity.
Qed.
Theorem C89_system : forall k iw s m, fresh s -> mem_start m -> let inp := sys_inp k iw s m in
  forall n, let '(t, (a, b)) := clocked (fun x => x mod 2 ^ k) (fun _ _ _ => 1%nat) iw (boot_arch s) (fun z => byte (wm_mem m (z / 4)) (z mod 4)) n in
  nth_fetch s inp n t /\ fetch_done s inp t (peek (fun x => x mod 2 ^ k) b (pc a) 4) /\ (forall z, byte (wm_mem (snd (system k iw s m t)) (z / 4)) (z mod 4) = b z) /\
  let x := run s inp (S t) in
  (forall r, 0 <= r < 32 -> x_of x r = rd_x a r) /\ pc_of x = pc a /\
  mie_of x = mie a /\ mpie_of x = mpie a /\ meie_of x = meie a /\
  mtvec_of x = mtvec a /\ mscratch_of x = mscratch a /\ mepc_of x = mepc a /\ mcause_of x = mcause a.
Proof.
  intros k iw s m Hf Hm inp n. pose proof (bus_ok_ok _ _ (sys_bus_ok k iw s m Hf Hm)) as K.
  pose proof (C89_simulator (fun x => x mod 2 ^ k) (fun _ _ _ => 1%nat) s inp _ K (sys_memory_slave k iw s m Hf Hm) (sys_answers k iw s m Hf Hm) n) as Q.
  change (fun c => irq (inp c)) with iw in Q. destruct (clocked _ _ _ _ _ n) as [t [a b]]. destruct Q as (Nf & F & Qm & Q). split; [exact Nf|]. split; [exact F|]. split; [|exact Q].
  intros z. rewrite <- Qm. destruct (inv_all k iw s m Hf Hm t) as [_ G]. specialize (G z). destruct (C02_registers_match_reference s inp K t _ F) as (c & M & _).
  destruct F as (C & _). pose proof (bus_shows s inp K t C) as Sh. rewrite M in Sh. destruct Sh. cbn [request q_we] in sh_we.
  unfold inp in *. fold (sys_inp k iw s m) in G. rewrite sh_we, andb_false_r in G. exact G.
Qed.

(** * Running a program on a system around the core

    For programs that run with interrupts disabled, read no data and store only to the LED
    register: the system executes exactly the instructions the program text says, for ever, and its
    LEDs show exactly the values stored.  The section below is about any system around the core with
    the listed properties; it is used for both variants of the example SoC (SocProg.v, CsrSoc.v). *)
From Coq Require Import ZArith Lia Bool List.
From Verif Require Import Bits Ucode Cpu Isa Timed BitLemmas Wf Sym Blocks CsrBlocks DecodeOk Boundary Sim Main Obs PropsBus Observe PropsIsa PropsFrame Memory SocMem SocIo.
Import ListNotations.
Open Scope Z_scope.

(** ** The program's own semantics *)
(** [code a]: the instruction at byte address [a]; [led]: the word addresses of the LED register.  One step: the next state and the value
    stored to the LEDs, if any; [None] if the program leaves the class described above. *)
Definition pstep (led : Z -> bool) (code : Z -> option instr) (a : arch) : option (arch * list Z) :=
  match code (pc a) with
  | None => None
  | Some i =>
    if int_enabled a || is_csr i then None
    else match exec SENTINEL a false i with
         | Fetching a' => Some (a', [])
         | Accessing r k =>
           if q_we r && led (q_adr r) && Z.testbit (q_sel r) 0
           then Some (k 0, [q_dat r mod 256]) else None
         end
  end.
(** [n] steps: the state reached and the values stored, oldest first. *)
Fixpoint psteps (led : Z -> bool) (code : Z -> option instr) (n : nat) (a : arch) : option (arch * list Z) :=
  match n with
  | O => Some (a, [])
  | S m => match pstep led code a with
           | Some (b, l) => match psteps led code m b with Some (c, l') => Some (c, l ++ l') | None => None end
           | None => None
           end
  end.
(** ** What an observer of the LEDs writes down: a new entry each time the value changes *)
Definition note (l : list Z) (v : Z) : list Z := if last l 0 =? v then l else l ++ [v].
Fixpoint shown (leds : nat -> Z) (t : nat) : list Z :=
  match t with O => [leds O] | S n => note (shown leds n) (leds (S n)) end.

Lemma note_last l v : last (note l v) 0 = v.
Proof. unfold note. destruct (Z.eqb_spec (last l 0) v); [assumption|]. apply last_last. Qed.
Lemma note_same l : note l (last l 0) = l.
Proof. unfold note. rewrite Z.eqb_refl. reflexivity. Qed.
Lemma shown_last f t : last (shown f t) 0 = f t.
Proof. destruct t; [reflexivity|]. cbn [shown]. apply note_last. Qed.
Lemma shown_const f t n : (forall u, (t <= u < t + n)%nat -> f (S u) = f u) -> shown f (t + n) = shown f t.
Proof.
  induction n as [|n IH]; intros H; [rewrite Nat.add_0_r; reflexivity|]. rewrite Nat.add_succ_r. cbn [shown]. rewrite H by lia.
  rewrite IH by (intros; apply H; lia). rewrite <- (shown_last f (t + n)). rewrite IH by (intros; apply H; lia). apply note_same.
Qed.
Lemma psteps_app led code n : forall a b l m c l', psteps led code n a = Some (b, l) -> psteps led code m b = Some (c, l') -> psteps led code (n + m) a = Some (c, l ++ l').
Proof.
  induction n as [|n IH]; intros a b l m c l' H H'; cbn [psteps Nat.add] in *; [injection H as <- <-; exact H'|].
  destruct (pstep led code a) as [[a1 l1]|]; [|discriminate]. destruct (psteps led code n a1) as [[b1 l2]|] eqn:E; [|discriminate]. injection H as <- <-.
  rewrite (IH a1 b1 l2 m c l' E H'), app_assoc. reflexivity.
Qed.

Lemma psteps_S led code n a b l : psteps led code (S n) a = Some (b, l) -> exists c l1 l2, psteps led code n a = Some (c, l1) /\ pstep led code c = Some (b, l2) /\ l = l1 ++ l2.
Proof.
  revert a b l. induction n as [|n IH]; intros a b l H.
  - cbn [psteps] in H. destruct (pstep led code a) as [[c l1]|] eqn:E; [|discriminate]. injection H as <- <-. exists a, [], l1. split; [reflexivity|]. split; [assumption|]. apply app_nil_r.
  - cbn [psteps] in H. destruct (pstep led code a) as [[c l1]|] eqn:E; [|discriminate]. change (match psteps led code (S n) c with Some (c0, l') => Some (c0, l1 ++ l') | None => None end = Some (b, l)) in H.
    destruct (psteps led code (S n) c) as [[d l2]|] eqn:E2; [|discriminate]. injection H as <- <-. destruct (IH _ _ _ E2) as (e & m1 & m2 & Q1 & Q2 & ->).
    exists e, (l1 ++ m1), m2. cbn [psteps]. rewrite E, Q1. split; [reflexivity|]. split; [assumption|]. apply app_assoc.
Qed.
(** A larger LED address range runs the same programs. *)
Lemma pstep_mono (led led' : Z -> bool) code a r : (forall z, led z = true -> led' z = true) -> pstep led code a = Some r -> pstep led' code a = Some r.
Proof.
  intros L H. unfold pstep in *. destruct (code (pc a)); [|discriminate]. destruct (_ || _); [discriminate|]. destruct (exec _ _ _ _) as [|q kk]; [assumption|].
  destruct (q_we q); [|discriminate]. cbn [andb] in *. specialize (L (q_adr q)). destruct (led (q_adr q)); [|discriminate]. rewrite L by reflexivity. exact H.
Qed.
Lemma psteps_mono (led led' : Z -> bool) code : (forall z, led z = true -> led' z = true) -> forall n a r, psteps led code n a = Some r -> psteps led' code n a = Some r.
Proof.
  intros L. induction n as [|n IH]; intros a r H; [assumption|]. cbn [psteps] in *. destruct (pstep led code a) as [[b l]|] eqn:E; [|discriminate].
  rewrite (pstep_mono _ led' _ _ _ L E). destruct (psteps led code n b) as [[c l']|] eqn:E'; [|discriminate]. rewrite (IH _ _ E'). exact H.
Qed.
(** While [f] stays or becomes [v], the observer notes at most [v]. *)
Lemma shown_toward f v t n : (forall u, (t <= u < t + n)%nat -> f (S u) = f u \/ f (S u) = v) ->
  shown f (t + n) = shown f t \/ shown f (t + n) = note (shown f t) v.
Proof.
  induction n as [|n IH]; intros H; [rewrite Nat.add_0_r; left; reflexivity|]. rewrite Nat.add_succ_r.
  assert (I := IH ltac:(intros; apply H; lia)). destruct (H (t + n)%nat ltac:(lia)) as [E|E].
  - assert (shown f (S (t + n)) = shown f (t + n)) as ->. { replace (S (t + n)) with (t + n + 1)%nat by lia. apply shown_const. intros u Hu. replace u with (t + n)%nat by lia. exact E. } exact I.
  - right. cbn [shown]. rewrite E. destruct I as [->| ->]; [reflexivity|]. rewrite <- (note_last (shown f t) v) at 2. apply note_same.
Qed.
Lemma byte_eq_word v w : word v -> word w -> (forall i, 0 <= i < 4 -> byte v i = byte w i) -> v = w.
Proof.
  intros Hv Hw H. apply Z.bits_inj'. intros n Hn. destruct (Z.lt_ge_cases n 32).
  - assert (Hq : 0 <= n / 8 < 4) by (split; [apply Z.div_pos; lia|apply Z.div_lt_upper_bound; lia]).
    specialize (H (n / 8) Hq). apply (f_equal (fun z => Z.testbit z (n mod 8))) in H.
    pose proof (Z.mod_pos_bound n 8 ltac:(lia)) as Hm. unfold byte, fld in H. rewrite !Z.mod_pow2_bits_low, !Z.div_pow2_bits in H by lia.
    replace (n mod 8 + 8 * (n / 8)) with n in H; [exact H|]. pose proof (Z.div_mod n 8 ltac:(lia)). lia.
  - unfold word in *. rewrite <- (Z.mod_small v (2 ^ 32)), <- (Z.mod_small w (2 ^ 32)) by lia. rewrite !Z.mod_pow2_bits_high by lia. reflexivity.
Qed.

(** ** Any system around the core *)
(** What the section needs to know about a system: [leds_at] is its LED register, [mem0] the initial
    contents of its RAM of [2 ^ k] words, [led] the word addresses of the LED register. *)
Record hosts (s : state) (inp : nat -> input) (leds_at : nat -> Z) (k : Z) (mem0 : Z -> Z) (led : Z -> bool) : Prop := {
  ho_bus : bus_ok s inp;
  ho_k : 0 <= k <= 23;
  ho_mem0 : forall a, word (mem0 a);
  ho_led : forall a, led a = true -> a / 2 ^ 23 <> 0;
  (* requests to the RAM window and to the LED register are answered *)
  ho_ack : forall t, o_cyc (run s inp t) = true -> (o_adr (run s inp t) / 2 ^ 23 =? 0) || led (o_adr (run s inp t)) = true ->
    exists n, ack (inp (t + n)%nat) = true /\ forall j, (j < n)%nat -> ack (inp (t + j)%nat) = false;
  (* RAM reads return the last bytes stored *)
  ho_ram : forall t, o_cyc (run s inp t) = true -> ack (inp t) = true -> o_we (run s inp t) = false -> 0 <= o_adr (run s inp t) < 2 ^ 23 ->
    forall i, 0 <= i < 4 ->
    byte (dat_r (inp t)) i = ram_after k (run s inp) (fun u => ack (inp u)) (fun z => byte (mem0 (z / 4)) (z mod 4)) t (4 * (o_adr (run s inp t) mod 2 ^ k) + i);
  (* the LEDs are off after reset, change only on behalf of the pending store to them, and show its value when it completes *)
  ho_leds0 : leds_at 0%nat = 0;
  ho_change : forall v, leds_at (S v) <> leds_at v -> exists u, (v <= u)%nat /\ o_cyc (run s inp u) = true /\ ack (inp u) = true /\ o_we (run s inp u) = true /\
    leds_at (S v) = o_dat_w (run s inp u) mod 256 /\ forall j, (v <= j < u)%nat -> o_cyc (run s inp j) && ack (inp j) = false;
  ho_store : forall u, o_cyc (run s inp u) = true -> ack (inp u) = true -> o_we (run s inp u) = true -> led (o_adr (run s inp u)) = true -> Z.testbit (o_sel (run s inp u)) 0 = true ->
    leds_at (S u) = o_dat_w (run s inp u) mod 256 }.

Section P.
Variables (s : state) (inp : nat -> input) (leds_at : nat -> Z) (k : Z) (mem0 : Z -> Z) (led : Z -> bool).
Hypothesis (Ho : hosts s inp leds_at k mem0 led).
Let K : ok s inp := bus_ok_ok _ _ (ho_bus _ _ _ _ _ _ Ho).

Definition acked (t : nat) : bool := o_cyc (run s inp t) && ack (inp t).
Definition none_between (t t' : nat) : Prop := forall u, (t < u < t')%nat -> acked u = false.
Definition at_fetch (t : nat) (a : arch) : Prop := acked t = true /\ machine s inp t = Fetching a.
Definition mapped (a : Z) : bool := (a / 2 ^ 23 =? 0) || led a.

Lemma machine_stays t m n : machine s inp t = m -> (forall j, (j < n)%nat -> acked (t + j)%nat = false) -> machine s inp (t + n) = m.
Proof.
  intros M. induction n as [|n IH]; intros H; [rewrite Nat.add_0_r; assumption|]. rewrite Nat.add_succ_r.
  rewrite (machine_noack s inp (t + n)). { apply IH. intros; apply H; lia. } specialize (H n ltac:(lia)). exact H.
Qed.
(** A request that comes up in cycle [t] to a mapped address is answered. *)
Lemma answered t m : o_cyc (run s inp t) = true -> machine s inp t = m -> mapped (q_adr (request m)) = true ->
  exists n, acked (t + n)%nat = true /\ machine s inp (t + n) = m /\ forall j, (j < n)%nat -> acked (t + j)%nat = false.
Proof.
  intros C M R. pose proof (bus_shows s inp K t C) as Sh. rewrite M in Sh.
  assert (Ad : mapped (o_adr (run s inp t)) = true) by (destruct Sh; congruence).
  destruct (ho_ack _ _ _ _ _ _ Ho t C Ad) as (n & A & N). exists n.
  assert (Q : forall j, (j <= n)%nat -> o_cyc (run s inp (t + j)) = true).
  { induction j as [|j IH]; intros Hj; [rewrite Nat.add_0_r; assumption|]. rewrite Nat.add_succ_r.
    apply (C05_request_held s inp K (t + j)); [apply IH; lia|apply N; lia]. }
  assert (N' : forall j, (j < n)%nat -> acked (t + j)%nat = false) by (intros j Hj; unfold acked; rewrite N, andb_false_r by assumption; reflexivity).
  split; [unfold acked; rewrite Q, A by lia; reflexivity|]. split; [|assumption]. apply machine_stays; assumption.
Qed.
Lemma completes t m : acked t = true -> machine s inp (S t) = m -> mapped (q_adr (request m)) = true ->
  exists t', (t < t')%nat /\ acked t' = true /\ machine s inp t' = m /\ none_between t t'.
Proof.
  intros A M R. apply andb_prop in A. destruct A as [C A].
  destruct (C08_never_hangs s inp K) as [_ N]. destruct (N t C A) as (n & Hn & Q & C1).
  assert (Q' : forall j, (j < n)%nat -> acked (t + 1 + j)%nat = false) by (intros j Hj; unfold acked; rewrite Q by assumption; reflexivity).
  assert (M1 : machine s inp (t + 1 + n) = m). { apply machine_stays; [replace (t + 1)%nat with (S t) by lia; assumption|exact Q']. }
  destruct (answered _ m C1 M1 R) as (n2 & A2 & M2 & N2). exists (t + 1 + n + n2)%nat. split; [lia|]. split; [assumption|]. split; [assumption|].
  intros u Hu. destruct (Nat.lt_ge_cases u (t + 1 + n)).
  - replace u with (t + 1 + (u - t - 1))%nat by lia. apply Q'. lia.
  - replace u with (t + 1 + n + (u - t - 1 - n))%nat by lia. apply N2. lia.
Qed.
Lemma first_fetch : exists t, at_fetch t (boot_arch s) /\ forall u, (u < t)%nat -> acked u = false.
Proof.
  assert (Q : forall j, (j < 5)%nat -> acked j = false).
  { intros j Hj. unfold acked. rewrite (timed_cyc s inp K). unfold t_cyc. pose proof (idle_count s inp 0 5 eq_refl j ltac:(lia)) as I. cbn [Nat.add] in I. rewrite I. destruct (5 - j)%nat eqn:E; [lia|reflexivity]. }
  destruct (C08_never_hangs s inp K) as [C5 _].
  assert (M : machine s inp 5 = Fetching (boot_arch s)). { apply (machine_stays 0 _ 5); [reflexivity|]. intros j Hj. apply Q. cbn. lia. }
  destruct (answered 5 (Fetching (boot_arch s)) C5 M) as (n & A & M' & N); [reflexivity|].
  exists (5 + n)%nat. split; [split; assumption|]. intros u Hu. destruct (Nat.lt_ge_cases u 5); [apply Q; assumption|]. replace u with (5 + (u - 5))%nat by lia. apply N. lia.
Qed.

(** Nothing has been stored in the RAM. *)
Definition ram_intact (t : nat) : Prop := forall u, (u < t)%nat -> acked u = true -> o_we (run s inp u) = true -> o_adr (run s inp u) / 2 ^ 23 <> 0.
Lemma fetch_word t a : at_fetch t a -> ram_intact t -> 0 <= pc a / 4 < 2 ^ k -> dat_r (inp t) = mem0 (pc a / 4).
Proof.
  intros [A M] I Hpc. apply andb_prop in A. destruct A as [C A].
  pose proof (bus_shows s inp K t C) as Sh. rewrite M in Sh. cbn [request] in Sh. destruct Sh. cbn [q_adr q_we] in *.
  assert (P23 : 2 ^ k <= 2 ^ 23) by (pose proof (ho_k _ _ _ _ _ _ Ho); apply Z.pow_le_mono_r; lia).
  assert (Hd : forall i, 0 <= i < 4 -> byte (dat_r (inp t)) i = byte (mem0 (pc a / 4)) i).
  { intros i Hi. pose proof (ho_ram _ _ _ _ _ _ Ho t C A) as V.
    assert (Ea : o_adr (run s inp t) = pc a / 4) by congruence. assert (We : o_we (run s inp t) = false) by congruence.
    rewrite V; [|exact We|rewrite Ea; lia|exact Hi]. clear V. rewrite Ea.
    rewrite (Z.mod_small (pc a / 4)) by lia.
    replace (ram_after k (run s inp) (fun u => ack (inp u)) (fun z => byte (mem0 (z / 4)) (z mod 4)) t (4 * (pc a / 4) + i))
      with (byte (mem0 ((4 * (pc a / 4) + i) / 4)) ((4 * (pc a / 4) + i) mod 4)).
    - rewrite (Z.mul_comm 4), Z.div_add_l by lia. rewrite (Z.add_comm _ i), Z.mod_add by lia. rewrite (Z.div_small i 4), (Z.mod_small i 4) by lia. rewrite Z.add_0_r. reflexivity.
    - generalize (4 * (pc a / 4) + i). intros z. clear - I. induction t as [|t IH]; [reflexivity|]. cbn [ram_after].
      rewrite <- IH by (intros u Hu; apply I; lia). specialize (I t ltac:(lia)). unfold acked in I.
      destruct (o_cyc (run s inp t) && ack (inp t)); [|reflexivity]. destruct (o_we (run s inp t)); [|reflexivity]. cbn [andb].
      destruct (Z.eqb_spec (o_adr (run s inp t) / 2 ^ 23) 0) as [E|]; [|reflexivity]. destruct (I eq_refl eq_refl E). }
  apply byte_eq_word; [apply (ok'_env _ _ K)|apply (ho_mem0 _ _ _ _ _ _ Ho)|exact Hd].
Qed.

(** If the next transfer after [v] is [u]: the LEDs stay, or take the value [u] stores. *)
Lemma leds_next v u : (v <= u)%nat -> acked u = true -> (forall j, (v <= j < u)%nat -> acked j = false) ->
  leds_at (S v) = leds_at v \/ (o_we (run s inp u) = true /\ leds_at (S v) = o_dat_w (run s inp u) mod 256).
Proof.
  intros L A N. destruct (Z.eq_dec (leds_at (S v)) (leds_at v)) as [E|Ne]; [left; assumption|right].
  destruct (ho_change _ _ _ _ _ _ Ho v Ne) as (w & Lw & Cw & Aw & We & V & Nw).
  assert (u = w). { destruct (Nat.lt_trichotomy u w) as [H|[H|H]]; [|assumption|].
    - specialize (Nw u ltac:(lia)). fold (acked u) in Nw. congruence.
    - specialize (N w ltac:(lia)). unfold acked in N. rewrite Cw, Aw in N. discriminate. }
  subst w. auto.
Qed.

(** *** One instruction *)
Variable code : Z -> option instr.
(** The RAM holds the program. *)
Hypothesis Hcode : forall a i, code a = Some i -> a mod 4 = 0 /\ 0 <= a / 4 < 2 ^ k /\ decode (mem0 (a / 4)) = Some i.

Lemma exec_ip a i b b' : is_csr i = false -> exec SENTINEL a b i = exec SENTINEL a b' i.
Proof. destruct i; try reflexivity. discriminate. Qed.
Lemma ram_mapped a i : code a = Some i -> mapped (a / 4) = true.
Proof.
  intros H. destruct (Hcode a i H) as (_ & B & _). assert (P23 : 2 ^ k <= 2 ^ 23) by (pose proof (ho_k _ _ _ _ _ _ Ho); apply Z.pow_le_mono_r; lia).
  unfold mapped. rewrite Z.div_small by lia. reflexivity.
Qed.
Lemma one_insn t a b l : at_fetch t a -> ram_intact t -> pstep led code a = Some (b, l) -> code (pc b) <> None ->
  exists t', (t < t')%nat /\ at_fetch t' b /\ ram_intact t' /\ shown leds_at t' = fold_left note l (shown leds_at t) /\
  forall u, (t <= u <= t')%nat -> shown leds_at u = shown leds_at t \/ shown leds_at u = fold_left note l (shown leds_at t).
Proof.
  intros F I P Nb. unfold pstep in P. destruct (code (pc a)) as [i|] eqn:Ci; [|discriminate].
  destruct (int_enabled a) eqn:Ie; [discriminate|]. destruct (is_csr i) eqn:Ic; [discriminate|]. cbn [orb] in P.
  destruct (Hcode _ _ Ci) as (Al & B & Dc). pose proof (fetch_word t a F I B) as Fw. rewrite <- Fw in Dc.
  destruct F as [A M]. pose proof A as A0. apply andb_prop in A0. destruct A0 as [C0 A0].
  assert (M1 : machine s inp (S t) = exec SENTINEL a false i).
  { rewrite (machine_ack s inp t C0 A0), M. cbn [complete]. rewrite fetched_not_taken by (rewrite Ie; reflexivity). rewrite Dc. apply exec_ip. assumption. }
  assert (Wf : forall v b, machine s inp v = Fetching b -> acked v = true -> o_we (run s inp v) = false).
  { intros v b0 Mv Av. apply andb_prop in Av. pose proof (bus_shows s inp K v (proj1 Av)) as Sh. rewrite Mv in Sh. destruct Sh. assumption. }
  pose proof (Wf t a M A) as Wt.
  assert (L0 : leds_at (S t) = leds_at t). { destruct (leds_next t t (le_n t) A) as [E|[E _]]; [intros j Hj; lia|exact E|congruence]. }
  destruct (code (pc b)) as [ib|] eqn:Cb; [|congruence].
  destruct (exec SENTINEL a false i) as [a'|r kk] eqn:X.
  - injection P as <- <-. destruct (completes t (Fetching a') A M1) as (t' & L & A' & M' & N). { cbn [request q_adr]. eapply ram_mapped; eassumption. }
    assert (Cst : forall n, (t + n <= t')%nat -> shown leds_at (t + n) = shown leds_at t).
    { intros n Hn. apply shown_const. intros u Hu. destruct (Nat.eq_dec u t) as [->|]; [exact L0|].
      destruct (leds_next u t' ltac:(lia) A') as [E|[E _]]; [intros j Hj; apply N; lia|exact E|]. rewrite (Wf t' _ M' A') in E. discriminate. }
    exists t'. split; [assumption|]. split; [split; assumption|]. split; [|split].
    + intros u Hu Au We. destruct (Nat.lt_ge_cases u t); [apply I; assumption|]. destruct (Nat.eq_dec u t) as [->|]; [congruence|]. rewrite N in Au by lia. discriminate.
    + cbn [fold_left]. replace t' with (t + (t' - t))%nat by lia. apply Cst. lia.
    + intros u Hu. left. replace u with (t + (u - t))%nat by lia. apply Cst. lia.
  - destruct (q_we r && led (q_adr r) && Z.testbit (q_sel r) 0) eqn:Q; [|discriminate]. injection P as <- <-.
    apply andb_prop in Q. destruct Q as [Q Se]. apply andb_prop in Q. destruct Q as [Q Ld].
    assert (Rl : mapped (q_adr r) = true) by (unfold mapped; rewrite Ld; apply orb_true_r).
    destruct (completes t (Accessing r kk) A M1 Rl) as (u & Lu & Au & Mu & Nu).
    pose proof Au as Au0. apply andb_prop in Au0. destruct Au0 as [Cu Au0].
    assert (Mu' : machine s inp (S u) = Fetching (kk (dat_r (inp u)))) by (rewrite (machine_ack s inp u Cu Au0), Mu; reflexivity).
    assert (Kk : kk (dat_r (inp u)) = kk 0).
    { clear - X Q. destruct i; cbn [exec] in X; try discriminate;
      (destruct (aligned _ _); [|discriminate]; injection X as <- <-; cbn [q_we] in Q; try discriminate; reflexivity). }
    rewrite Kk in Mu'. pose proof (bus_shows s inp K u Cu) as Sh. rewrite Mu in Sh. cbn [request] in Sh.
    destruct (completes u (Fetching (kk 0)) Au Mu') as (t' & L' & A' & M' & N'). { cbn [request q_adr]. eapply ram_mapped; eassumption. }
    assert (Wu : o_we (run s inp u) = true) by (destruct Sh; congruence).
    assert (Eq : o_dat_w (run s inp u) = q_dat r) by (destruct Sh; auto).
    assert (Lv : leds_at (S u) = q_dat r mod 256).
    { rewrite <- Eq. apply (ho_store _ _ _ _ _ _ Ho); destruct Sh; congruence. }
    assert (Tw : forall n, (t + n <= S u)%nat -> shown leds_at (t + n) = shown leds_at t \/ shown leds_at (t + n) = note (shown leds_at t) (q_dat r mod 256)).
    { intros n Hn. apply shown_toward. intros v Hv. destruct (Nat.eq_dec v t) as [->|]; [left; exact L0|].
      destruct (leds_next v u ltac:(lia) Au) as [E|[_ E]]; [intros j Hj; apply Nu; lia|left; exact E|right; congruence]. }
    assert (Su : shown leds_at (S u) = note (shown leds_at t) (q_dat r mod 256)).
    { destruct (Tw (S u - t)%nat ltac:(lia)) as [E|E]; replace (t + (S u - t))%nat with (S u) in E by lia; [|exact E].
      rewrite <- E, <- Lv. unfold note. rewrite shown_last, Z.eqb_refl. reflexivity. }
    assert (Cst' : forall n, (S u + n <= t')%nat -> shown leds_at (S u + n) = shown leds_at (S u)).
    { intros n Hn. apply shown_const. intros v Hv. destruct (leds_next v t' ltac:(lia) A') as [E|[E _]]; [intros j Hj; apply N'; lia|exact E|]. rewrite (Wf t' _ M' A') in E. discriminate. }
    exists t'. split; [lia|]. split; [split; assumption|]. cbn [fold_left]. split; [|split].
    + intros v Hv Av We. destruct (Nat.lt_ge_cases v t); [apply I; assumption|]. destruct (Nat.eq_dec v t) as [->|]; [congruence|].
      destruct (Nat.lt_ge_cases v u); [rewrite Nu in Av by lia; discriminate|]. destruct (Nat.eq_dec v u) as [->|]; [|rewrite N' in Av by lia; discriminate].
      destruct Sh. replace (o_adr (run s inp u)) with (q_adr r) by congruence. apply (ho_led _ _ _ _ _ _ Ho). exact Ld.
    + replace t' with (S u + (t' - S u))%nat by lia. rewrite Cst' by lia. exact Su.
    + intros v Hv. destruct (Nat.lt_ge_cases u v).
      * right. replace v with (S u + (v - S u))%nat by lia. rewrite Cst' by lia. exact Su.
      * replace v with (t + (v - t))%nat by lia. apply Tw. lia.
Qed.

(** *** The whole run *)
Definition shows_after (t n : nat) : Prop := exists a l, psteps led code n (boot_arch s) = Some (a, l) /\ shown leds_at t = fold_left note l [0].
Lemma follows : (forall n, exists a l, psteps led code n (boot_arch s) = Some (a, l)) ->
  forall n a l, psteps led code n (boot_arch s) = Some (a, l) ->
  exists t, (n <= t)%nat /\ at_fetch t a /\ ram_intact t /\ shown leds_at t = fold_left note l [0] /\ forall u, (u <= t)%nat -> exists m, shows_after u m.
Proof.
  intros For. induction n as [|n IH]; intros a l H.
  - cbn [psteps] in H. injection H as <- <-. destruct first_fetch as (t & F & N).
    pose proof (ho_leds0 _ _ _ _ _ _ Ho) as L0.
    assert (Wt : o_we (run s inp t) = false).
    { destruct F as [A M]. apply andb_prop in A. pose proof (bus_shows s inp K t (proj1 A)) as Sh. rewrite M in Sh. destruct Sh. assumption. }
    assert (Cst : forall u, (u <= t)%nat -> shown leds_at u = [0]).
    { intros u Hu. rewrite <- L0. change [leds_at 0%nat] with (shown leds_at 0). apply (shown_const leds_at 0 u). intros v Hv.
      destruct (leds_next v t ltac:(lia) (proj1 F)) as [E|[E _]]; [intros j Hj; apply N; lia|exact E|congruence]. }
    exists t. split; [lia|]. split; [assumption|]. split; [intros u Hu Au; rewrite N in Au by assumption; discriminate|]. split; [apply Cst; lia|].
    intros u Hu. exists 0%nat. exists (boot_arch s), []. split; [reflexivity|]. apply Cst. assumption.
  - destruct (psteps_S _ _ _ _ _ _ H) as (c & l1 & l2 & H1 & H2 & ->). destruct (IH _ _ H1) as (t & Hn & F & I & Sh & Al).
    assert (Na : code (pc a) <> None).
    { destruct (For (S (S n))) as (a2 & l3 & H3). destruct (psteps_S _ _ _ _ _ _ H3) as (a' & m1 & m2 & Q1 & Q2 & _). rewrite H in Q1. injection Q1 as <- <-.
      unfold pstep in Q2. destruct (code (pc a)); [discriminate|congruence]. }
    destruct (one_insn t c a l2 F I H2 Na) as (t' & L & F' & I' & Sh' & Al').
    assert (E : fold_left note (l1 ++ l2) [0] = fold_left note l2 (shown leds_at t)) by (rewrite fold_left_app, Sh; reflexivity).
    exists t'. split; [lia|]. split; [assumption|]. split; [assumption|]. split; [rewrite E; assumption|].
    intros u Hu. destruct (Nat.lt_ge_cases u t); [apply Al; lia|]. destruct (Al' u ltac:(lia)) as [Q|Q].
    + exists n, c, l1. split; [assumption|]. rewrite Q. assumption.
    + exists (S n), a, (l1 ++ l2). split; [assumption|]. rewrite Q, E. reflexivity.
Qed.
Lemma programs : (forall n, psteps led code n (boot_arch s) <> None) ->
  let stored n l := exists a, psteps led code n (boot_arch s) = Some (a, l) in
  (forall n l, stored n l -> exists t, shown leds_at t = fold_left note l [0]) /\
  (forall t, exists n l, stored n l /\ shown leds_at t = fold_left note l [0]).
Proof.
  intros For stored.
  assert (For' : forall n, exists a l, psteps led code n (boot_arch s) = Some (a, l)).
  { intros n. specialize (For n). destruct (psteps _ _ _ _) as [[a l]|]; [exists a, l; reflexivity|congruence]. }
  split.
  - intros n l [a H]. destruct (follows For' n a l H) as (t & _ & _ & _ & Sh & _). exists t. exact Sh.
  - intros t. destruct (For' t) as (a & l & H). destruct (follows For' t a l H) as (t' & L & _ & _ & _ & Al).
    destruct (Al t L) as (m & b & l' & H' & Sh). exists m, l'. split; [exists b; exact H'|exact Sh].
Qed.
End P.

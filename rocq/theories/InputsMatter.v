(** * C28, sharpened: exactly which input bits can matter

    ACK only while CYC is high; DAT_R only when a read is acknowledged, and then only the
    byte lanes SEL asks for; IRQ only in the cycle after an instruction fetch is
    acknowledged and only if interrupts are enabled, in the cycle after that if the fetched
    word is a CSR instruction as well, and in the third if it reads MIP into a register
    (top.py:33-85). *)
From Coq Require Import ZArith Lia Bool List.
From Verif Require Import Bits Ucode Cpu Isa Timed BitLemmas Wf Sym Blocks CsrBlocks DecodeOk Boundary Sim Main Obs PropsBus PropsInv Observe PropsIsa PropsFrame.
Import ListNotations.
Open Scope Z_scope.

(** ** Specification *)

(** The two inputs agree wherever the core, running on [inp1], looks at them. *)
Record agree_where_used (s : state) (inp1 inp2 : nat -> input) : Prop := {
  au_ack : forall t, o_cyc (run s inp1 t) = true -> ack (inp2 t) = ack (inp1 t);
  au_dat : forall t, o_cyc (run s inp1 t) = true -> ack (inp1 t) = true -> o_we (run s inp1 t) = false ->
    forall i, 0 <= i < 4 -> Z.testbit (o_sel (run s inp1 t)) i = true -> byte (dat_r (inp2 t)) i = byte (dat_r (inp1 t)) i;
  au_irq : irq_agrees s inp1 inp2 }.   (* PropsFrame.v *)

(** ** Proofs *)
Lemma bytes_word d d' : word d -> word d' -> (forall i, 0 <= i < 4 -> byte d' i = byte d i) -> d' = d.
Proof.
  intros W W' H. pose proof (H 0 ltac:(lia)) as H0. pose proof (H 1 ltac:(lia)) as H1. pose proof (H 2 ltac:(lia)) as H2. pose proof (H 3 ltac:(lia)) as H3.
  unfold byte, fld in *. change (2 ^ (8 * 0)) with 1 in *. change (2 ^ (8 * 1)) with 256 in *. change (2 ^ (8 * 2)) with 65536 in *. change (2 ^ (8 * 3)) with 16777216 in *.
  change (2 ^ 8) with 256 in *. unfold word in *. change (2 ^ 32) with 4294967296 in *.
  rewrite !Z.div_1_r in *.
  assert (E : forall x, 0 <= x < 4294967296 -> x = x mod 256 + 256 * (x / 256 mod 256) + 65536 * (x / 65536 mod 256) + 16777216 * (x / 16777216 mod 256)).
  { intros x Hx. pose proof (Z.div_mod x 256 ltac:(lia)). pose proof (Z.div_mod (x / 256) 256 ltac:(lia)) as A. pose proof (Z.div_mod (x / 65536) 256 ltac:(lia)) as B.
    rewrite Z.div_div in A by lia. rewrite Z.div_div in B by lia. change (256 * 256) with 65536 in A. change (65536 * 256) with 16777216 in B.
    rewrite (Z.mod_small (x / 16777216) 256); [lia|]. split; [apply Z.div_pos; lia|apply Z.div_lt_upper_bound; lia]. }
  rewrite (E d W), (E d' W'). rewrite H0, H1, H2, H3. reflexivity.
Qed.
Definition lane_only (m : mach) : Prop :=
  match m with
  | Fetching _ => True
  | Accessing r k => forall d d',
      (q_we r = false -> forall i, 0 <= i < 4 -> Z.testbit (q_sel r) i = true -> byte d' i = byte d i) -> k d' = k d
  end.

Lemma exec_lanes v a ip i : lane_only (exec v a ip i).
Proof.
  destruct i; cbn [exec]; try exact I.
  - destruct (aligned _ _) eqn:Al; [|exact I]. cbn [lane_only q_we q_sel]. intros d d' H.
    rewrite (load_value_lanes _ _ _ d d' Al); [reflexivity|].
    intros i Hi Ad. apply H; [reflexivity|assumption|]. rewrite lanes_addressed; assumption.
  - destruct (aligned _ _); [|exact I]. cbn [lane_only]. reflexivity.
Qed.
Lemma fetched_lanes v a w i1 i2 i3 : lane_only (fetched v a w i1 i2 i3).
Proof.
  unfold fetched. destruct (_ && _); [exact I|]. destruct (decode w) as [i|]; [|exact I]. destruct (_ && _); [exact I|]. apply exec_lanes.
Qed.
Lemma machine_lanes s inp t : lane_only (machine s inp t).
Proof.
  induction t as [|t IH]; [exact I|]. unfold machine, isa_run. cbn [bus_log]. rewrite fold_left_app.
  change (fold_left (complete SENTINEL (fun n => irq (inp n))) (bus_log s inp t) (Fetching (boot_arch s))) with (machine s inp t).
  destruct (_ && _); [|exact IH]. cbn [fold_left complete]. destruct (machine s inp t); [apply fetched_lanes|exact I].
Qed.

Theorem C28_inputs_that_matter : forall s inp1 inp2, ok s inp1 -> env inp2 -> agree_where_used s inp1 inp2 ->
  (forall t, same_outputs (run s inp1 t) (run s inp2 t)) /\
  (forall t w, fetch_done s inp1 t w -> fetch_done s inp2 t w /\
     let x := run s inp1 (S t) in let y := run s inp2 (S t) in same_regs x y /\ same_csrs x y /\ pc_of y = pc_of x).
Proof.
  intros s inp1 inp2 K1 E2 [Ha Hd Hq].
  assert (W : forall t a, o_cyc (run s inp1 t) = true -> ack (inp1 t) = true -> machine s inp1 t = Fetching a -> dat_r (inp2 t) = dat_r (inp1 t)).
  { intros t a C A M. pose proof (bus_shows s inp1 K1 t C) as Sh. rewrite M in Sh. destruct Sh. cbn [request q_sel q_we] in *.
    apply bytes_word; [apply K1|apply E2|]. intros i Hi. apply Hd; try assumption. rewrite sh_sel.
    assert (i = 0 \/ i = 1 \/ i = 2 \/ i = 3) as Hc by lia. destruct Hc as [E|[E|[E|E]]]; subst i; reflexivity. }
  assert (Ts : forall t, timed s inp2 t = timed s inp1 t).
  { induction t as [|t IH]; [reflexivity|].
    change (timed s inp2 (S t)) with (tnext SENTINEL (irqs inp2) t (timed s inp2 t) (ack (inp2 t)) (dat_r (inp2 t))).
    change (timed s inp1 (S t)) with (tnext SENTINEL (irqs inp1) t (timed s inp1 t) (ack (inp1 t)) (dat_r (inp1 t))).
    rewrite IH. pose proof (timed_cyc s inp1 K1 t) as C. unfold t_cyc in C. unfold tnext.
    destruct (t_idle (timed s inp1 t)) eqn:I; [|reflexivity]. rewrite (Ha t C).
    destruct (t_early (timed s inp1 t)) eqn:Er; [reflexivity|]. destruct (ack (inp1 t)) eqn:Ak; [|reflexivity].
    rewrite (timed_machine s inp1 K1).
    pose proof (fetch_iff s inp1 K1 t C) as Fi. pose proof (machine_lanes s inp1 t) as Ml. pose proof (bus_shows s inp1 K1 t C) as Sh.
    destruct (machine s inp1 t) as [a|r k] eqn:M.
    2:{ cbn [complete delay_after]. cbn [lane_only] in Ml. rewrite (Ml (dat_r (inp1 t)) (dat_r (inp2 t))); [reflexivity|].
        destruct Sh. cbn [request] in *. intros We i Hi Si. apply Hd; try assumption; congruence. }
    rewrite (W t a C Ak M). cbn [complete delay_after].
    pose proof (b_rel _ _ _ (fetch_boundary s inp1 K1 t a C Ak M)) as R.
    destruct (Hq t (dat_r (inp1 t))) as [Q1 Q2]; [repeat split; assumption|]. unfold irqs.
    unfold mie_of, meie_of in Q1. rewrite <- (r_mie _ _ _ _ _ _ _ _ R), <- (r_meie _ _ _ _ _ _ _ _ R) in Q1.
    assert (Ex : forall i, decode (dat_r (inp1 t)) = Some i -> exec SENTINEL a (irq (inp2 (t + 3)%nat)) i = exec SENTINEL a (irq (inp1 (t + 3)%nat)) i).
    { intros i D. apply exec_ip. intros f rd g -> Nr. eapply Q2; eassumption. }
    unfold fetched, fetch_delay, int_enabled, csr_word in *.
    destruct (mie a && meie a) eqn:Ie; cbn [andb].
    - apply andb_prop in Ie. destruct Ie as [I1 I2]. destruct (Q1 I1 I2) as [-> Q3].
      destruct (irq (inp1 (t + 1)%nat)); [reflexivity|]. destruct (decode (dat_r (inp1 t))) as [i|]; [|reflexivity].
      rewrite (Ex i eq_refl). destruct (is_csr i); [rewrite (Q3 eq_refl)|]; reflexivity.
    - destruct (decode (dat_r (inp1 t))) as [i|]; [|reflexivity]. rewrite (Ex i eq_refl). rewrite !andb_false_r. reflexivity. }
  assert (K2 : ok s inp2).
  { constructor; [apply K1|assumption|]. intros t H1 H2. change (trun inp2 (boot_ts (boot_arch s)) t) with (timed s inp2 t) in *. rewrite Ts in *.
    rewrite Ha; [apply (ok'_polite _ _ K1); assumption|]. rewrite (timed_cyc s inp1 K1). unfold t_cyc. rewrite H1. reflexivity. }
  split; [apply same_timed_outputs; assumption|].
  intros t w F. destruct (fetch_machine s inp1 K1 t w F) as [a M]. destruct F as (C & U & A & D).
  assert (M2 : machine s inp2 t = Fetching a) by (rewrite <- (timed_machine s inp2 K2), Ts, (timed_machine s inp1 K1); assumption).
  assert (C2 : o_cyc (run s inp2 t) = true) by (rewrite (timed_cyc s inp2 K2), Ts, <- (timed_cyc s inp1 K1); assumption).
  assert (A2 : ack (inp2 t) = true) by (rewrite Ha; assumption).
  pose proof (fetch_iff s inp2 K2 t C2) as U2. rewrite M2 in U2. pose proof (W t a C A M) as D2.
  split; [repeat split; congruence|]. cbv zeta.
  pose proof (b_rel _ _ _ (fetch_boundary s inp1 K1 t a C A M)) as R1.
  pose proof (b_rel _ _ _ (fetch_boundary s inp2 K2 t a C2 A2 M2)) as R2.
  split; [eapply rel_same_regs; [exact R1|exact R2|reflexivity]|].
  split; [eapply rel_same_csrs; [exact R1|exact R2|..]; reflexivity|].
  rewrite <- (pc_of_rel a _ R1), <- (pc_of_rel a _ R2). reflexivity.
Qed.

(** ** A case that meets the hypotheses *)
(** lb x2, 1(x0); sw x2, 256(x0): fetched in cycles 6 and 16, loaded in 12, stored in 24. *)
Definition lb_inp1 (t : nat) : input :=
  {| rst := false; ack := existsb (Nat.eqb t) [6; 12; 16; 24]%nat;
     dat_r := if (t <? 12)%nat then 0x00100103 else if (t <? 16)%nat then 0x12345678 else 0x10202023; irq := false |}.
(** The same but for garbage: acknowledgements nobody asked for, DAT_R floating, the three
    lanes the load does not want, and IRQ (disabled after reset) asserted for ever. *)
Definition lb_inp2 (t : nat) : input :=
  {| rst := false; ack := existsb (Nat.eqb t) [3; 6; 9; 10; 12; 16; 19; 24; 25]%nat;
     dat_r := if (t =? 6)%nat then 0x00100103 else if (t =? 12)%nat then 0xdead56ef else if (t =? 16)%nat then 0x10202023 else 0xffffffff;
     irq := true |}.
Example C28_inputs_that_matter_applies :
  bus_ok por lb_inp1 /\ env lb_inp2 /\ agree_where_used por lb_inp1 lb_inp2 /\
  (exists t, o_we (run por lb_inp2 t) = true /\ o_cyc (run por lb_inp2 t) = true /\ o_dat_w (run por lb_inp2 t) = 0x56).
Proof.
  assert (A1 : forall t, ack (lb_inp1 t) = true -> t = 6%nat \/ t = 12%nat \/ t = 16%nat \/ t = 24%nat).
  { intros t A. cbn [lb_inp1 ack] in A. apply existsb_exists in A. destruct A as (u & Hu & E). apply Nat.eqb_eq in E. subst u. cbn [In] in Hu. intuition congruence. }
  assert (A2 : forall t, o_cyc (run por lb_inp1 t) = true -> ack (lb_inp2 t) = ack (lb_inp1 t)).
  { intros t C. destruct (ack (lb_inp2 t)) eqn:E.
    - cbn [lb_inp2 ack] in E. apply existsb_exists in E. destruct E as (u & Hu & E). apply Nat.eqb_eq in E. subst u. cbn [In] in Hu.
      repeat (destruct Hu as [<-|Hu]; [revert C; vm_compute; congruence|]). contradiction.
    - destruct (ack (lb_inp1 t)) eqn:E1; [|reflexivity].
      destruct (A1 t E1) as [H|[H|[H|H]]]; subst t; discriminate E. }
  split.
  { constructor; [apply por_fresh| |].
    - constructor; intros t; [reflexivity|]. cbn [lb_inp1 dat_r]. destruct (t <? 12)%nat; [unfold word; lia|]. destruct (t <? 16)%nat; unfold word; lia.
    - intros t C A. destruct (A1 t A) as [H|[H|[H|H]]]; subst t; eexists; (split; [reflexivity|]); vm_compute; reflexivity. }
  split.
  { constructor; intros t; [reflexivity|]. cbn [lb_inp2 dat_r]. destruct (t =? 6)%nat; [unfold word; lia|]. destruct (t =? 12)%nat; [unfold word; lia|].
    destruct (t =? 16)%nat; unfold word; lia. }
  split.
  { constructor.
    - exact A2.
    - intros t C A Wt i Hi Si. assert (Hc : i = 0 \/ i = 1 \/ i = 2 \/ i = 3) by lia.
      destruct (A1 t A) as [H|[H|[H|H]]]; subst t.
      + destruct Hc as [H|[H|[H|H]]]; subst i; reflexivity.
      + destruct Hc as [H|[H|[H|H]]]; subst i; [exfalso; revert Si; vm_compute; discriminate|reflexivity|exfalso; revert Si; vm_compute; discriminate|exfalso; revert Si; vm_compute; discriminate].
      + destruct Hc as [H|[H|[H|H]]]; subst i; reflexivity.
      + exfalso. revert Wt. vm_compute. discriminate.
    - intros t w (C & U & A & D). cbv zeta. destruct (A1 t A) as [H|[H|[H|H]]]; subst t.
      + split; [intros M; exfalso; revert M; vm_compute; discriminate|]. intros f rd g Hd. exfalso. subst w. revert Hd. vm_compute. discriminate.
      + exfalso. revert U. vm_compute. discriminate.
      + split; [intros M; exfalso; revert M; vm_compute; discriminate|]. intros f rd g Hd. exfalso. subst w. revert Hd. vm_compute. discriminate.
      + exfalso. revert U. vm_compute. discriminate. }
  exists 24%nat. vm_compute. auto.
Qed.

(** * The interrupt-driven serial driver of the example firmware: C63, C64
      (sentinel-rt/examples/attosoc.rs:28-33, 133-199)

    The firmware is modelled at the level of the Rust source: the main thread, the interrupt handler
    and the serial port run concurrently; critical sections and the handler exclude one another but
    not the port, and every computation may take any number of cycles. *)
From Coq Require Import ZArith Lia Bool List.
From Verif Require Import Bits Uart.
Import ListNotations.
Open Scope Z_scope.

(** ** Model *)
(** Accesses to the peripherals (attosoc.rs:106-131): the two interrupt registers, the serial data
    register, and, by the main thread, a read of the GPIO pins ([None]) or a write to the LEDs. *)
Inductive op := RdTimer | RdIrq | RdData | WrData (b : Z) | Gpio (w : option Z).
(** Where the processor is.  In the states with a number an access is on the bus, for that many cycles
    already. *)
Inductive pc :=
| Boot                                     (* main, up to [mie::set_mext()] (attosoc.rs:369-401) *)
| Main                                     (* main, outside critical sections *)
| MGpio (w : option Z) (k : nat)           (* read_inp_port, write_leds (125-131) *)
| Cs                                       (* write_char: in the critical section (attosoc.rs:188-196) *)
| MWrite (k : nat)                         (*   write_serial_tx (192) *)
| MSet                                     (*   TX_IN_PROGRESS.store(true) (193) *)
| HTimer (k : nat)                         (* MachineExternal: read_timer_int (141) *)
| HGap1
| HIrq (k : nat)                           (*   read_serial_int (146) *)
| HGap2 (v : Z)                            (*   [v] is [ser_int] *)
| HRx (v : Z) (k : nat)                    (*   read_serial_rx (148) *)
| HGap3 (v : Z)
| HWrite (b : Z) (k : nat).                (*   write_serial_tx (167) *)
(** [d_busy] is TX_IN_PROGRESS, [d_queue] the queue (a [Queue<u8, 64>] holds up to 63 bytes), [d_n] how
    many bytes [write_char] has finished with, [d_sets] the characters stored in RX, oldest first. *)
Record drv := { d_pc : pc; d_busy : bool; d_queue : list Z; d_n : nat; d_sets : list Z }.
(** attosoc.rs:28-33, 369-381 *)
Definition drv0 : drv := {| d_pc := Boot; d_busy := false; d_queue := []; d_n := O; d_sets := [] |}.
(** What happens in a cycle without a bus access: nothing, the next step of the program, or, in [Main],
    also an access to the GPIO pins or an interrupt. *)
Inductive move := Wait | Go | Pins (w : option Z) | Interrupt.
(** Change of place only. *)
Definition at_ (p : pc) (d : drv) : drv := {| d_pc := p; d_busy := d_busy d; d_queue := d_queue d; d_n := d_n d; d_sets := d_sets d |}.
(** attosoc.rs:109-131, 141-167 *)
Definition op_of (p : pc) : option (op * nat) :=
  match p with
  | HTimer k => Some (RdTimer, k) | HIrq k => Some (RdIrq, k) | HRx _ k => Some (RdData, k) | HWrite b k => Some (WrData b, k) | MGpio w k => Some (Gpio w, k)
  | _ => None
  end.
Section Step.
(** The bytes the main thread passes to [write_char], in order. *)
Variable todo : nat -> Z.
(** attosoc.rs:192 *)
Definition pc_op (d : drv) : option (op * nat) := match d_pc d with MWrite k => Some (WrData (todo (d_n d)), k) | p => op_of p end.
(** One cycle.  [irq]: the interrupt line. *)
Definition dstep (d : drv) (o : move) (irq ack : bool) (dat : Z) : drv :=
  match d_pc d with
  (* enabling interrupts: a pending one is taken at once (C23) *)
  | Boot => match o with Wait => d | _ => at_ (if irq then HTimer 0 else Main) d end
  | Main => match o with Wait => d | Go => at_ Cs d | Pins w => at_ (MGpio w 0) d | Interrupt => if irq then at_ (HTimer 0) d else d end
  | MGpio w k => if ack then at_ Main d else at_ (MGpio w (S k)) d
  | Cs => match o with
          | Wait => d
          | _ => if d_busy d                                       (* 189 *)
                 then if Nat.ltb (length (d_queue d)) 63            (* 190: enqueue, or retry when full *)
                      then {| d_pc := Main; d_busy := true; d_queue := d_queue d ++ [todo (d_n d)]; d_n := S (d_n d); d_sets := d_sets d |}
                      else at_ Main d
                 else at_ (MWrite 0) d
          end
  | MWrite k => if ack then at_ MSet d else at_ (MWrite (S k)) d
  | MSet => match o with
            | Wait => d
            | _ => {| d_pc := Main; d_busy := true; d_queue := d_queue d; d_n := S (d_n d); d_sets := d_sets d |}
            end
  | HTimer k => if ack then at_ HGap1 d else at_ (HTimer (S k)) d
  | HGap1 => match o with Wait => d | _ => at_ (HIrq 0) d end
  | HIrq k => if ack then at_ (HGap2 dat) d else at_ (HIrq (S k)) d
  | HGap2 v => match o with Wait => d | _ => at_ (if Z.testbit v 0 then HRx v 0 else HGap3 v) d end   (* 147 *)
  | HRx v k => if ack
               then {| d_pc := HGap3 v; d_busy := d_busy d; d_queue := d_queue d; d_n := d_n d; d_sets := d_sets d ++ [dat mod 256] |}   (* 149 *)
               else at_ (HRx v (S k)) d
  | HGap3 v =>
    match o with
    | Wait => d
    | _ => if Z.testbit v 1                                        (* 152 *)
           then let d' := {| d_pc := Main; d_busy := d_busy d; d_queue := tl (d_queue d); d_n := d_n d; d_sets := d_sets d |} in   (* 161 *)
                if d_busy d                                        (* 164 *)
                then match d_queue d with
                     | b :: _ => at_ (HWrite b 0) d'               (* 167 *)
                     | [] => {| d_pc := Main; d_busy := false; d_queue := []; d_n := d_n d; d_sets := d_sets d |}    (* 169 *)
                     end
                else d'
           else at_ Main d
    end
  | HWrite b k => if ack then at_ Main d else at_ (HWrite b (S k)) d
  end.
End Step.

(** ** What the proofs need to know about a serial port, cycle by cycle *)
Section Generic.
Variables (todo : nat -> Z) (o : nat -> move) (tr : nat -> drv).
(** Transmitter: ready for a byte, being given one, and which; receiver: a character available, and
    which; their events and interrupt bits; ACK, the interrupt line, and read data. *)
Variables (idle rdy txi rzt full rxi rzr ak irqs : nat -> bool) (txd rdata dat : nat -> Z).
Definition begins (t : nat) (w : op) : Prop := pc_op todo (tr t) = Some (w, 0%nat).
Definition op_at (t : nat) : option (op * nat) := pc_op todo (tr t).
(** A byte is to reach the transmitter. *)
Definition wr (t : nat) : option Z := match op_at t with Some (WrData b, 1%nat) => Some b | _ => None end.
Definition rd_irq (t : nat) : bool := match op_at t with Some (RdIrq, O) => true | _ => false end.
Record port : Prop := {
  p_step : forall t, tr (S t) = dstep todo (tr t) (o t) (irqs t) (ak t) (dat t);
  p_start : tr 0%nat = drv0; p_wait : o 0%nat = Wait;
  p_idle0 : idle 0%nat = true; p_full0 : full 0%nat = false; p_rxi0 : rxi 0%nat = false; p_rzr0 : rzr 0%nat = false;
  p_rzt : forall t, rzt (S t) = idle (S t) && negb (idle t);
  p_rzr : forall t, rzr (S t) = full (S t) && negb (full t);
  p_txi : forall t, txi (S t) = rzt t || (txi t && negb (rd_irq t));
  p_rxi : forall t, rxi (S t) = rzr t || (rxi t && negb (rd_irq t));
  p_byte : forall i, 0 <= todo i < 256;
  p_irq : forall t, rxi t || txi t = true -> irqs t = true;
  p_ack : forall t w, begins t w -> (w = RdIrq \/ w = RdData \/ exists b, w = WrData b) -> ak t = false;
  p_rdy : forall t, rdy t = match wr t with Some _ => true | None => false end;
  p_txd : forall t b, wr t = Some b -> txd t = b mod 256;
  p_idle : forall t, idle t = true -> idle (S t) = match wr t with Some _ => false | None => true end;
  p_full : forall t, full t = true -> (forall k, op_at t <> Some (RdData, k)) -> full (S t) = true /\ rdata (S t) = rdata t;
  p_take : forall t, full t = true -> begins t RdData -> forall i, (1 <= i <= 6)%nat -> full (t + i)%nat = false;
  p_lat : forall t k, op_at t = Some (RdData, k) -> (k <= 5)%nat;
  p_dirq : forall t k, op_at t = Some (RdIrq, k) -> ak t = true -> dat t = b2z (rxi (t - k)%nat) + 2 * b2z (txi (t - k)%nat);
  p_ddat : forall t k, op_at t = Some (RdData, k) -> ak t = true -> dat t mod 256 = rdata (t - k)%nat }.
Hypothesis Po : port.

(** The bytes the transmitter has accepted before cycle [t], and the characters that have become
    available up to and including cycle [t]. *)
Fixpoint accepted (t : nat) : list Z :=
  match t with O => [] | S u => if idle u && rdy u then accepted u ++ [txd u] else accepted u end.
Fixpoint received (t : nat) : list Z :=
  match t with O => [] | S u => received u ++ if rzr t then [rdata t] else [] end.
Definition given (n : nat) : list Z := map todo (seq 0 n).

(** *** Transmission *)
Definition pnd (t : nat) : Prop := txi t = negb (rzt t).
Definition stA (d : drv) (t : nat) : Prop := d_busy d = false /\ d_queue d = [] /\ idle t = true /\ rzt t = false /\ txi t = false.
Definition stA0 (d : drv) (t : nat) : Prop := d_busy d = false /\ d_queue d = [] /\ idle t = true /\ rzt t = false.
Definition flying (t : nat) : Prop := (idle t = false /\ txi t = false) \/ (idle t = true /\ pnd t).
Definition stBC (d : drv) (t : nat) : Prop := d_busy d = true /\ flying t.
Definition stK (d : drv) (t : nat) : Prop := d_busy d = true /\ idle t = true /\ rzt t = false /\ txi t = false.
Definition norm (d : drv) (t : nat) : Prop := stA d t \/ stBC d t.
Definition log (d : drv) (t : nat) : Prop := accepted t ++ d_queue d = given (d_n d).
Definition tinv (t : nat) : Prop :=
  let d := tr t in
  match d_pc d with
  | Boot => d_busy d = false /\ d_queue d = [] /\ d_n d = 0%nat /\ idle t = true /\ (t <> 0%nat -> rzt t = false) /\ accepted t = []
  | Main | Cs | MGpio _ _ => norm d t /\ log d t
  | MWrite 0%nat | MWrite 1%nat => stA d t /\ log d t
  | MWrite _ | MSet => d_busy d = false /\ d_queue d = [] /\ flying t /\ accepted t = given (S (d_n d))
  | HTimer _ | HGap1 | HIrq O => (stA0 d t \/ stBC d t) /\ log d t
  | HIrq k => (if txi (t - k)%nat then stA d t \/ stK d t else norm d t) /\ log d t
  | HGap2 v | HGap3 v | HRx v _ => (if Z.testbit v 1 then stA d t \/ stK d t else norm d t) /\ log d t
  | HWrite b O | HWrite b 1%nat => stK d t /\ accepted t ++ b :: d_queue d = given (d_n d)
  | HWrite b _ => stBC d t /\ log d t
  end.

Lemma rzt_idle t : t <> 0%nat -> rzt t = true -> idle t = true.
Proof. intros N H. destruct t; [contradiction|]. rewrite (p_rzt Po) in H. apply andb_prop in H. apply H. Qed.
Lemma boot0 : d_pc (tr 1%nat) = Boot. Proof. rewrite (p_step Po), (p_start Po), (p_wait Po). reflexivity. Qed.
Lemma given_S n : given (S n) = given n ++ [todo n].
Proof. unfold given. rewrite seq_S, map_app. reflexivity. Qed.
(** One cycle of the port without a byte for the transmitter. *)
Lemma idle_keeps t : idle t = true -> wr t = None -> idle (S t) = true /\ rzt (S t) = false.
Proof. intros I W. pose proof (p_idle Po t I) as E. rewrite W in E. split; [exact E|]. rewrite (p_rzt Po), E, I. reflexivity. Qed.
Lemma acc_keeps t : wr t = None -> accepted (S t) = accepted t.
Proof. intros W. cbn [accepted]. rewrite (p_rdy Po), W, andb_false_r. reflexivity. Qed.
Lemma txi_keeps t : rd_irq t = false -> txi (S t) = rzt t || txi t.
Proof. intros R. rewrite (p_txi Po), R, andb_true_r. reflexivity. Qed.
Lemma flying_keeps t : t <> 0%nat -> wr t = None -> rd_irq t = false -> flying t -> flying (S t).
Proof.
  intros N W R [[I T]|[I P]].
  - assert (Z : rzt t = false) by (destruct (rzt t) eqn:Z; [rewrite (rzt_idle t N Z) in I; discriminate|reflexivity]).
    pose proof (txi_keeps t R) as T'. rewrite T, Z in T'.
    destruct (idle (S t)) eqn:I'; [right|left]; (split; [exact I'|]); [|exact T'].
    unfold pnd. rewrite (p_rzt Po), I', I. exact T'.
  - destruct (idle_keeps t I W) as [I' Z']. right. split; [exact I'|]. unfold pnd in *. rewrite (txi_keeps t R), P, Z'. destruct (rzt t); reflexivity.
Qed.
Lemma stA_keeps d d' t : wr t = None -> rd_irq t = false -> d_busy d' = d_busy d -> d_queue d' = d_queue d -> stA d t -> stA d' (S t).
Proof.
  intros W R Eb Eq (B & Q & I & Z & T). destruct (idle_keeps t I W) as [I' Z']. unfold stA. rewrite Eb, Eq, (txi_keeps t R), Z, T. auto.
Qed.
Lemma stA0_keeps d d' t : wr t = None -> d_busy d' = d_busy d -> d_queue d' = d_queue d -> stA0 d t -> stA0 d' (S t).
Proof. intros W Eb Eq (B & Q & I & Z). destruct (idle_keeps t I W) as [I' Z']. unfold stA0. rewrite Eb, Eq. auto. Qed.
Lemma stK_keeps d d' t : wr t = None -> rd_irq t = false -> d_busy d' = d_busy d -> stK d t -> stK d' (S t).
Proof. intros W R Eb (B & I & Z & T). destruct (idle_keeps t I W) as [I' Z']. unfold stK. rewrite Eb, (txi_keeps t R), Z, T. auto. Qed.
Lemma stBC_keeps d d' t : t <> 0%nat -> wr t = None -> rd_irq t = false -> d_busy d' = d_busy d -> stBC d t -> stBC d' (S t).
Proof. intros N W R Eb (B & F). split; [congruence|]. apply flying_keeps; assumption. Qed.
Lemma norm_keeps d d' t : t <> 0%nat -> wr t = None -> rd_irq t = false -> d_busy d' = d_busy d -> d_queue d' = d_queue d -> norm d t -> norm d' (S t).
Proof. intros N W R Eb Eq [H|H]; [left; eapply stA_keeps|right; eapply stBC_keeps]; eassumption. Qed.
Lemma log_keeps d d' t : wr t = None -> d_queue d' = d_queue d -> d_n d' = d_n d -> log d t -> log d' (S t).
Proof. intros W Eq En H. unfold log. rewrite (acc_keeps t W), Eq, En. exact H. Qed.
(** A byte is accepted. *)
Lemma write_flies t b : 0 <= b < 256 -> wr t = Some b -> idle t = true -> rzt t = false -> txi t = false -> rd_irq t = false ->
  flying (S t) /\ accepted (S t) = accepted t ++ [b].
Proof.
  intros Hb W I Z T R. split.
  - left. pose proof (p_idle Po t I) as E. rewrite W in E. split; [exact E|]. rewrite (txi_keeps t R), Z, T. reflexivity.
  - cbn [accepted]. rewrite (p_rdy Po), (p_txd Po t b W), W, I, Z.mod_small by exact Hb. reflexivity.
Qed.
Lemma given_byte n b : In b (given n) -> 0 <= b < 256.
Proof. intros H. apply in_map_iff in H. destruct H as (i & <- & _). apply (p_byte Po). Qed.

Lemma tinv_holds t : tinv t.
Proof.
  induction t as [|t IH].
  - unfold tinv. rewrite (p_start Po). cbn. rewrite (p_idle0 Po). repeat split; congruence.
  - unfold tinv in *. cbv zeta in *. set (d := tr t) in *.
    assert (E1 : tr (S t) = dstep todo d (o t) (irqs t) (ak t) (dat t)) by apply (p_step Po).
    assert (N0 : d_pc d <> Boot -> t <> 0%nat) by (intros N ->; apply N; unfold d; rewrite (p_start Po); reflexivity).
    assert (Opn : pc_op todo d = op_at t) by reflexivity.
    assert (Wn : (forall b k, op_at t <> Some (WrData b, k)) -> wr t = None).
    { intros H. unfold wr. destruct (op_at t) as [[w k]|]; [|reflexivity]. destruct w; try reflexivity. destruct (H b k eq_refl). }
    assert (Rn : (forall k, op_at t <> Some (RdIrq, k)) -> rd_irq t = false).
    { intros H. unfold rd_irq. destruct (op_at t) as [[w k]|]; [|reflexivity]. destruct w; try reflexivity. destruct (H k eq_refl). }
    unfold dstep in E1. unfold pc_op in Opn.
    destruct (d_pc d) eqn:Epc; cbn [op_of] in Opn.
    + (* Boot *)
      destruct IH as (B & Q & Nn & I & Z & Ac).
      assert (W : wr t = None) by (apply Wn; congruence). destruct (idle_keeps t I W) as [I' Z']. pose proof (acc_keeps t W) as Ac'. rewrite Ac in Ac'.
      assert (R : rd_irq t = false) by (apply Rn; congruence).
      assert (Keep : d_pc (tr (S t)) = Boot -> tr (S t) = d -> d_busy (tr (S t)) = false /\ d_queue (tr (S t)) = [] /\ d_n (tr (S t)) = 0%nat /\ idle (S t) = true /\ (S t <> 0%nat -> rzt (S t) = false) /\ accepted (S t) = []).
      { intros _ ->. repeat split; try assumption. intros _. exact Z'. }
      assert (Leave : o t <> Wait -> t <> 0%nat). { intros No ->. apply No. apply (p_wait Po). }
      assert (Gone : o t <> Wait -> tr (S t) = at_ (if irqs t then HTimer 0 else Main) d ->
        match d_pc (tr (S t)) with HTimer _ => (stA0 (tr (S t)) (S t) \/ stBC (tr (S t)) (S t)) /\ log (tr (S t)) (S t) | _ => norm (tr (S t)) (S t) /\ log (tr (S t)) (S t) end).
      { intros No ->. specialize (Z (Leave No)). assert (L : log (at_ (if irqs t then HTimer 0 else Main) d) (S t)) by (unfold log; cbn [at_ d_queue d_n]; rewrite Ac', Q, Nn; reflexivity).
        destruct (irqs t) eqn:Iq; cbn [at_ d_pc].
        - split; [left; repeat split; assumption|exact L].
        - split; [|exact L]. left. repeat split; try assumption. rewrite (txi_keeps t R), Z. destruct (txi t) eqn:T; [|reflexivity]. rewrite (p_irq Po t) in Iq by (rewrite T; apply orb_true_r); discriminate. }
      destruct (o t) eqn:Eo; [rewrite E1, Epc; rewrite <- E1; apply Keep; [congruence|assumption]|..].
      all: specialize (Gone ltac:(discriminate) E1); rewrite E1 in *; destruct (irqs t); exact Gone.
    + (* Main *)
      destruct IH as [Nm Lg]. specialize (N0 ltac:(discriminate)). assert (W : wr t = None) by (apply Wn; congruence). assert (R : rd_irq t = false) by (apply Rn; congruence).
      assert (Ni : norm (tr (S t)) (S t) /\ log (tr (S t)) (S t)).
      { split; [eapply norm_keeps|eapply log_keeps]; try eassumption; rewrite E1; destruct (o t); try destruct (irqs t); reflexivity. }
      assert (Ha : norm (tr (S t)) (S t) -> stA0 (tr (S t)) (S t) \/ stBC (tr (S t)) (S t)) by (intros [(? & ? & ? & ? & ?)|H]; [left; repeat split; assumption|right; assumption]).
      assert (Q : match d_pc (tr (S t)) with Main | Cs | MGpio _ _ | HTimer _ => True | _ => False end).
      { rewrite E1. destruct (o t); [rewrite Epc|..]; try exact I; destruct (irqs t); [exact I|rewrite Epc; exact I]. }
      destruct (d_pc (tr (S t))); try contradiction Q; try exact Ni. destruct Ni; split; auto.
    + (* MGpio *)
      destruct IH as [Nm Lg]. specialize (N0 ltac:(discriminate)). assert (W : wr t = None) by (apply Wn; congruence). assert (R : rd_irq t = false) by (apply Rn; congruence).
      assert (Ni : norm (tr (S t)) (S t) /\ log (tr (S t)) (S t)).
      { split; [eapply norm_keeps|eapply log_keeps]; try eassumption; rewrite E1; destruct (ak t); reflexivity. }
      rewrite E1. rewrite E1 in Ni. destruct (ak t); exact Ni.
    + (* Cs *)
      destruct IH as [Nm Lg]. specialize (N0 ltac:(discriminate)). assert (W : wr t = None) by (apply Wn; congruence). assert (R : rd_irq t = false) by (apply Rn; congruence).
      destruct (o t) eqn:Eo.
      { rewrite E1, Epc. split; [eapply norm_keeps|eapply log_keeps]; try eassumption; reflexivity. }
      all: clear Eo; rewrite E1; destruct (d_busy d) eqn:Bz; [destruct (Nat.ltb _ _)|]; cbn [d_pc at_].
      all: try (split; [eapply norm_keeps|eapply log_keeps]; try eassumption; reflexivity).
      all: try (split; [right; destruct Nm as [(X & _)|Nm]; [congruence|]; eapply stBC_keeps; try eassumption; cbn [d_busy]; congruence|];
        unfold log; cbn [d_queue d_n]; rewrite (acc_keeps t W), app_assoc; unfold log in Lg; rewrite Lg, given_S; reflexivity).
      all: (split; [destruct Nm as [Nm|(X & _)]; [|congruence]; eapply stA_keeps; try eassumption; reflexivity|eapply log_keeps; try eassumption; reflexivity]).
    + (* MWrite *)
      specialize (N0 ltac:(discriminate)). assert (R : rd_irq t = false) by (apply Rn; congruence).
      destruct k as [|[|k]].
      * destruct IH as [A Lg]. assert (W : wr t = None) by (unfold wr; rewrite <- Opn; reflexivity).
        rewrite (p_ack Po t (WrData (todo (d_n d)))) in E1 by (first [unfold begins; fold (op_at t); rewrite <- Opn; reflexivity|eauto]).
        rewrite E1. cbn [at_ d_pc]. split; [eapply stA_keeps|eapply log_keeps]; try eassumption; reflexivity.
      * destruct IH as [(B & Q & I & Z & T) Lg]. assert (W : wr t = Some (todo (d_n d))) by (unfold wr; rewrite <- Opn; reflexivity).
        destruct (write_flies t _ (p_byte Po _) W I Z T R) as [F Ac].
        assert (G : accepted (S t) = given (S (d_n d))) by (rewrite Ac, given_S; unfold log in Lg; rewrite Q, app_nil_r in Lg; rewrite Lg; reflexivity).
        rewrite E1. destruct (ak t); cbn [at_ d_pc d_busy d_queue d_n]; auto.
      * destruct IH as (B & Q & F & Ac). assert (W : wr t = None) by (unfold wr; rewrite <- Opn; reflexivity).
        pose proof (flying_keeps t N0 W R F) as F'. pose proof (acc_keeps t W) as Ac'. rewrite Ac in Ac'.
        rewrite E1. destruct (ak t); cbn [at_ d_pc d_busy d_queue d_n]; auto.
    + (* MSet *)
      specialize (N0 ltac:(discriminate)). assert (R : rd_irq t = false) by (apply Rn; congruence). assert (W : wr t = None) by (apply Wn; congruence).
      destruct IH as (B & Q & F & Ac). pose proof (flying_keeps t N0 W R F) as F'. pose proof (acc_keeps t W) as Ac'. rewrite Ac in Ac'.
      destruct (o t); [rewrite E1, Epc; auto|..]; rewrite E1; cbn [d_pc]; (split; [right; split; [reflexivity|exact F']|unfold log; cbn [d_queue d_n]; rewrite Q, app_nil_r; exact Ac']).
    + (* HTimer *)
      specialize (N0 ltac:(discriminate)). assert (R : rd_irq t = false) by (apply Rn; congruence). assert (W : wr t = None) by (apply Wn; congruence).
      destruct IH as [H Lg]. rewrite E1. destruct (ak t); cbn [at_ d_pc].
      all: (split; [|eapply log_keeps; try eassumption; reflexivity]); destruct H as [H|H]; [left; eapply stA0_keeps|right; eapply stBC_keeps]; try eassumption; reflexivity.
    + (* HGap1 *)
      specialize (N0 ltac:(discriminate)). assert (R : rd_irq t = false) by (apply Rn; congruence). assert (W : wr t = None) by (apply Wn; congruence).
      destruct IH as [H Lg].
      assert (G : (stA0 (tr (S t)) (S t) \/ stBC (tr (S t)) (S t)) /\ log (tr (S t)) (S t)).
      { split; [|eapply log_keeps; try eassumption; rewrite E1; destruct (o t); reflexivity]. destruct H as [H|H]; [left; eapply stA0_keeps|right; eapply stBC_keeps]; try eassumption; rewrite E1; destruct (o t); reflexivity. }
      rewrite E1 in *. destruct (o t); [rewrite Epc|..]; exact G.
    + (* HIrq *)
      specialize (N0 ltac:(discriminate)). assert (W : wr t = None) by (apply Wn; congruence).
      destruct k as [|k].
      * destruct IH as [H Lg]. rewrite (p_ack Po t RdIrq) in E1 by (first [unfold begins; fold (op_at t); rewrite <- Opn; reflexivity|eauto]).
        rewrite E1. cbn [at_ d_pc]. replace (S t - 1)%nat with t by lia. split; [|eapply log_keeps; try eassumption; reflexivity].
        assert (Rd : rd_irq t = true) by (unfold rd_irq; rewrite <- Opn; reflexivity). pose proof (p_txi Po t) as Tx. rewrite Rd, andb_false_r, orb_false_r in Tx.
        destruct H as [(B & Q & I & Z)|[B F]].
        -- destruct (idle_keeps t I W) as [I' Z']. rewrite Z in Tx. destruct (txi t); left; repeat split; assumption.
        -- destruct (txi t) eqn:T.
           ++ right. destruct F as [[_ F]|[I P]]; [congruence|]. destruct (idle_keeps t I W) as [I' Z'].
              unfold pnd in P. assert (Z : rzt t = false) by (destruct (rzt t); [cbn in P; congruence|reflexivity]).
              rewrite Z in Tx. repeat split; assumption.
           ++ right. split; [exact B|]. destruct F as [[I T0]|[I P]].
              ** assert (Z : rzt t = false) by (destruct (rzt t) eqn:Z; [rewrite (rzt_idle t N0 Z) in I; discriminate|reflexivity]). rewrite Z in Tx.
                 destruct (idle (S t)) eqn:I'; [right; split; [exact I'|unfold pnd; rewrite (p_rzt Po), I', I; exact Tx]|left; split; [exact I'|exact Tx]].
              ** destruct (idle_keeps t I W) as [I' Z']. right. split; [exact I'|]. unfold pnd in *. rewrite Tx, Z'. destruct (rzt t); [reflexivity|cbn in P; congruence].
      * assert (R : rd_irq t = false) by (unfold rd_irq; rewrite <- Opn; reflexivity). destruct IH as [H Lg].
        assert (G : forall d', d_busy d' = d_busy d -> d_queue d' = d_queue d -> if txi (t - S k)%nat then stA d' (S t) \/ stK d' (S t) else norm d' (S t)).
        { intros d' Eb Eq. destruct (txi (t - S k)%nat); [destruct H as [H|H]; [left; eapply stA_keeps|right; eapply stK_keeps]; eassumption|eapply norm_keeps; eassumption]. }
        rewrite E1. destruct (ak t) eqn:A; cbn [at_ d_pc]; (split; [|eapply log_keeps; try eassumption; reflexivity]).
        -- pose proof (p_dirq Po t (S k) (eq_sym Opn) A) as Dt. rewrite Dt.
           replace (Z.testbit (b2z (rxi (t - S k)%nat) + 2 * b2z (txi (t - S k)%nat)) 1) with (txi (t - S k)%nat) by (destruct (rxi _), (txi _); reflexivity). apply G; reflexivity.
        -- replace (S t - S (S k))%nat with (t - S k)%nat by lia. apply G; reflexivity.
    + (* HGap2 *)
      specialize (N0 ltac:(discriminate)). assert (R : rd_irq t = false) by (apply Rn; congruence). assert (W : wr t = None) by (apply Wn; congruence).
      destruct IH as [H Lg].
      assert (G : (if Z.testbit v 1 then stA (tr (S t)) (S t) \/ stK (tr (S t)) (S t) else norm (tr (S t)) (S t)) /\ log (tr (S t)) (S t)).
      { assert (Eb : d_busy (tr (S t)) = d_busy d /\ d_queue (tr (S t)) = d_queue d /\ d_n (tr (S t)) = d_n d) by (rewrite E1; destruct (o t); auto). destruct Eb as (Eb & Eq & En).
        split; [|eapply log_keeps; eassumption]. destruct (Z.testbit v 1); [destruct H as [H|H]; [left; eapply stA_keeps|right; eapply stK_keeps]; eassumption|eapply norm_keeps; eassumption]. }
      rewrite E1 in *. destruct (o t); [rewrite Epc; exact G|..]; destruct (Z.testbit v 0); exact G.
    + (* HRx *)
      specialize (N0 ltac:(discriminate)). assert (R : rd_irq t = false) by (apply Rn; congruence). assert (W : wr t = None) by (apply Wn; congruence).
      destruct IH as [H Lg].
      assert (G : (if Z.testbit v 1 then stA (tr (S t)) (S t) \/ stK (tr (S t)) (S t) else norm (tr (S t)) (S t)) /\ log (tr (S t)) (S t)).
      { assert (Eb : d_busy (tr (S t)) = d_busy d /\ d_queue (tr (S t)) = d_queue d /\ d_n (tr (S t)) = d_n d) by (rewrite E1; destruct (ak t); auto). destruct Eb as (Eb & Eq & En).
        split; [|eapply log_keeps; eassumption]. destruct (Z.testbit v 1); [destruct H as [H|H]; [left; eapply stA_keeps|right; eapply stK_keeps]; eassumption|eapply norm_keeps; eassumption]. }
      rewrite E1 in *. destruct (ak t); exact G.
    + (* HGap3 *)
      specialize (N0 ltac:(discriminate)). assert (R : rd_irq t = false) by (apply Rn; congruence). assert (W : wr t = None) by (apply Wn; congruence).
      destruct IH as [H Lg].
      assert (Stay : tr (S t) = d -> (if Z.testbit v 1 then stA (tr (S t)) (S t) \/ stK (tr (S t)) (S t) else norm (tr (S t)) (S t)) /\ log (tr (S t)) (S t)).
      { intros ->. split; [|eapply log_keeps; try eassumption; reflexivity]. destruct (Z.testbit v 1); [destruct H as [H|H]; [left; eapply stA_keeps|right; eapply stK_keeps]; try eassumption; reflexivity|eapply norm_keeps; try eassumption; reflexivity]. }
      destruct (o t); [rewrite E1 in *; rewrite Epc; apply Stay; reflexivity|..]; clear Stay; rewrite E1.
      all: destruct (Z.testbit v 1); [|cbn [at_ d_pc]; split; [eapply norm_keeps|eapply log_keeps]; try eassumption; reflexivity].
      all: cbv zeta; destruct H as [H|H].
      1,3,5: pose proof H as (B & Q & _); rewrite B; cbn [d_pc]; (split; [left; eapply stA_keeps; try exact H; try assumption; cbn [d_busy d_queue]; rewrite ?Q, ?B; reflexivity|eapply log_keeps; try exact Lg; try assumption; cbn [d_queue]; rewrite Q; reflexivity]).
      all: pose proof H as (B & I & Z & T); rewrite B; destruct (d_queue d) as [|b q] eqn:Q; cbn [at_ d_pc d_busy d_queue d_n tl].
      1,3,5: destruct (idle_keeps t I W) as [I' Z']; (split; [left; repeat split; try assumption; rewrite (txi_keeps t R), Z, T; reflexivity|unfold log; cbn [d_queue d_n]; rewrite (acc_keeps t W); unfold log in Lg; rewrite Q in Lg; exact Lg]).
      all: (split; [eapply stK_keeps; try eassumption; cbn [d_busy at_]; congruence|rewrite (acc_keeps t W); unfold log in Lg; rewrite Q in Lg; exact Lg]).
    + (* HWrite *)
      specialize (N0 ltac:(discriminate)). assert (R : rd_irq t = false) by (apply Rn; congruence).
      destruct k as [|[|k]].
      * destruct IH as [K Lg]. assert (W : wr t = None) by (unfold wr; rewrite <- Opn; reflexivity).
        rewrite (p_ack Po t (WrData b)) in E1 by (first [unfold begins; fold (op_at t); rewrite <- Opn; reflexivity|eauto]).
        rewrite E1. cbn [at_ d_pc d_queue d_n]. split; [eapply stK_keeps; try eassumption; reflexivity|]. rewrite (acc_keeps t W). exact Lg.
      * destruct IH as [(B & I & Z & T) Lg]. assert (W : wr t = Some b) by (unfold wr; rewrite <- Opn; reflexivity).
        assert (Hb : 0 <= b < 256) by (apply (given_byte (d_n d)); rewrite <- Lg; apply in_or_app; right; left; reflexivity).
        destruct (write_flies t _ Hb W I Z T R) as [F Ac].
        assert (G : accepted (S t) ++ d_queue d = given (d_n d)) by (rewrite Ac, <- app_assoc; exact Lg).
        rewrite E1. destruct (ak t); cbn [at_ d_pc]; (split; [first [right; split; [exact B|exact F]|split; [exact B|exact F]]|exact G]).
      * destruct IH as [H Lg]. assert (W : wr t = None) by (unfold wr; rewrite <- Opn; reflexivity).
        assert (G : forall d', d_busy d' = d_busy d -> d_queue d' = d_queue d -> d_n d' = d_n d -> stBC d' (S t) /\ log d' (S t)) by (intros; split; [eapply stBC_keeps|eapply log_keeps]; eassumption).
        destruct (G (tr (S t))) as [G1 G2]; [rewrite E1; destruct (ak t); reflexivity..|]. rewrite E1 in *. destruct (ak t); (split; [first [exact G1|right; exact G1]|exact G2]).
Qed.

(** *** Reception *)
Definition stE (t : nat) : Prop := full t = false /\ rxi t = false /\ rzr t = false.
Definition stF (t : nat) : Prop := full t = true /\ rxi t = false /\ rzr t = false.
Definition stC (t : nat) : Prop := stE t \/ (full t = true /\ rxi t = negb (rzr t)).
Definition rlog (d : drv) (t : nat) : Prop := received t = d_sets d ++ if full t then [rdata t] else [].
Definition rinv (t : nat) : Prop :=
  let d := tr t in
  match d_pc d with
  | HIrq (S k) => (if rxi (t - S k)%nat then stF t else stC t) /\ rlog d t
  | HGap2 v => (if Z.testbit v 0 then stF t else stC t) /\ rlog d t
  | HRx v O => stF t /\ rlog d t
  | HRx v (S k) => (S k <= t)%nat /\ stE t /\ full (t - S k)%nat = true /\ begins (t - S k)%nat RdData /\ received t = d_sets d ++ [rdata (t - S k)%nat]
  | _ => stC t /\ rlog d t
  end.
Lemma rxi_keeps t : rd_irq t = false -> rxi (S t) = rzr t || rxi t.
Proof. intros R. rewrite (p_rxi Po), R, andb_true_r. reflexivity. Qed.
Lemma stE_next t : stE t -> rxi (S t) = false /\ (stC (S t)) /\ forall d d', d_sets d' = d_sets d -> rlog d t -> rlog d' (S t).
Proof.
  intros (F & X & Z). assert (X' : rxi (S t) = false) by (rewrite (p_rxi Po), X, Z; reflexivity).
  pose proof (p_rzr Po t) as Z'. rewrite F, andb_true_r in Z'. split; [exact X'|]. split.
  - destruct (full (S t)) eqn:F'; [right|left]; repeat split; try assumption; rewrite X', Z'; reflexivity.
  - intros d d' E H. unfold rlog in *. rewrite E. cbn [received]. rewrite H, F, app_nil_r, Z'. reflexivity.
Qed.
Lemma full_keeps t : full t = true -> (forall k, op_at t <> Some (RdData, k)) ->
  full (S t) = true /\ rzr (S t) = false /\ forall d d', d_sets d' = d_sets d -> rlog d t -> rlog d' (S t).
Proof.
  intros F N. destruct (p_full Po t F N) as [F' D']. assert (Z' : rzr (S t) = false) by (rewrite (p_rzr Po), F', F; reflexivity).
  split; [exact F'|]. split; [exact Z'|]. intros d d' E H. unfold rlog in *. rewrite E. cbn [received]. rewrite Z', app_nil_r, H, F, F', D'. reflexivity.
Qed.
Lemma stF_keeps t : rd_irq t = false -> (forall k, op_at t <> Some (RdData, k)) -> stF t -> stF (S t) /\ forall d d', d_sets d' = d_sets d -> rlog d t -> rlog d' (S t).
Proof.
  intros R N (F & X & Z). destruct (full_keeps t F N) as (F' & Z' & L). split; [|exact L]. repeat split; try assumption. rewrite (rxi_keeps t R), X, Z. reflexivity.
Qed.
Lemma stC_keeps t : rd_irq t = false -> (forall k, op_at t <> Some (RdData, k)) -> stC t -> stC (S t) /\ forall d d', d_sets d' = d_sets d -> rlog d t -> rlog d' (S t).
Proof.
  intros R N [E|[F P]].
  - destruct (stE_next t E) as (_ & C & L). split; assumption.
  - destruct (full_keeps t F N) as (F' & Z' & L). split; [|exact L]. right. split; [exact F'|]. rewrite (rxi_keeps t R), P, Z'. destruct (rzr t); reflexivity.
Qed.
Lemma rinv_holds t : rinv t.
Proof.
  induction t as [|t IH].
  - unfold rinv. rewrite (p_start Po). cbn [drv0 d_pc]. split; [left; repeat split; apply Po|]. unfold rlog. rewrite (p_full0 Po). reflexivity.
  - unfold rinv in *. cbv zeta in *. set (d := tr t) in *.
    assert (E1 : tr (S t) = dstep todo d (o t) (irqs t) (ak t) (dat t)) by apply (p_step Po).
    assert (Opn : pc_op todo d = op_at t) by reflexivity.
    assert (Rn : (forall k, op_at t <> Some (RdIrq, k)) -> rd_irq t = false).
    { intros H. unfold rd_irq. destruct (op_at t) as [[w k]|]; [|reflexivity]. destruct w; try reflexivity. destruct (H k eq_refl). }
    (* the states in which nothing of interest happens *)
    assert (Calm : (forall k, op_at t <> Some (RdIrq, k)) -> (forall k, op_at t <> Some (RdData, k)) -> d_sets (tr (S t)) = d_sets d -> stC t /\ rlog d t -> stC (S t) /\ rlog (tr (S t)) (S t)).
    { intros N1 N2 Es [C L]. destruct (stC_keeps t (Rn N1) N2 C) as [C' L']. split; [exact C'|]. apply (L' d); assumption. }
    unfold dstep in E1. unfold pc_op in Opn.
    destruct (d_pc d) eqn:Epc; cbn [op_of] in Opn.
    all: try specialize (Calm ltac:(congruence) ltac:(congruence)).
    + (* Boot *)
      rewrite E1 in *. destruct (o t), (irqs t); cbn [at_ d_pc d_sets] in *; rewrite ?Epc; apply Calm; auto.
    + (* Main *)
      rewrite E1 in *. destruct (o t), (irqs t); cbn [at_ d_pc d_sets] in *; rewrite ?Epc; apply Calm; auto.
    + (* MGpio *)
      rewrite E1 in *. destruct (ak t); apply Calm; auto.
    + (* Cs *)
      rewrite E1 in *. destruct (o t), (d_busy d); try destruct (Nat.ltb _ _); cbn [at_ d_pc d_sets] in *; rewrite ?Epc; apply Calm; auto.
    + (* MWrite *)
      rewrite E1 in *. destruct (ak t); apply Calm; auto.
    + (* MSet *)
      rewrite E1 in *. destruct (o t); cbn [at_ d_pc d_sets] in *; rewrite ?Epc; apply Calm; auto.
    + (* HTimer *)
      rewrite E1 in *. destruct (ak t); apply Calm; auto.
    + (* HGap1 *)
      rewrite E1 in *. destruct (o t); cbn [at_ d_pc d_sets] in *; rewrite ?Epc; apply Calm; auto.
    + (* HIrq *)
      clear Calm. assert (N2 : forall k, op_at t <> Some (RdData, k)) by congruence. destruct k as [|k].
      * destruct IH as [C L]. assert (A : ak t = false) by (apply (p_ack Po t RdIrq); [unfold begins; fold (op_at t); rewrite <- Opn; reflexivity|auto]).
        rewrite A in E1. assert (Rd : rd_irq t = true) by (unfold rd_irq; rewrite <- Opn; reflexivity).
        assert (X' : rxi (S t) = rzr t) by (rewrite (p_rxi Po), Rd, andb_false_r, orb_false_r; reflexivity).
        rewrite E1. cbn [at_ d_pc]. replace (S t - 1)%nat with t by lia. destruct C as [E|[F P]].
        -- destruct (stE_next t E) as (_ & C & L'). destruct E as (_ & X & _). rewrite X. split; [exact C|]. apply (L' d); auto.
        -- destruct (full_keeps t F N2) as (F' & Z' & L'). split; [|apply (L' d); auto].
           destruct (rxi t) eqn:X.
           ++ repeat split; try assumption. rewrite X'. destruct (rzr t); [discriminate P|reflexivity].
           ++ right. split; [exact F'|]. rewrite X', Z'. destruct (rzr t); [reflexivity|discriminate P].
      * assert (R : rd_irq t = false) by (unfold rd_irq; rewrite <- Opn; reflexivity). destruct IH as [H L].
        assert (G : (if rxi (t - S k)%nat then stF (S t) else stC (S t)) /\ rlog (tr (S t)) (S t)).
        { assert (Es : d_sets (tr (S t)) = d_sets d) by (rewrite E1; destruct (ak t); reflexivity).
          destruct (rxi (t - S k)%nat); [destruct (stF_keeps t R N2 H) as [H' L']|destruct (stC_keeps t R N2 H) as [H' L']]; (split; [exact H'|apply (L' d); assumption]). }
        rewrite E1 in *. destruct (ak t) eqn:A; cbn [at_ d_pc].
        -- pose proof (p_dirq Po t (S k) (eq_sym Opn) A) as Dt. rewrite Dt.
           replace (Z.testbit (b2z (rxi (t - S k)%nat) + 2 * b2z (txi (t - S k)%nat)) 0) with (rxi (t - S k)%nat) by (destruct (rxi _), (txi _); reflexivity). exact G.
        -- replace (S t - S (S k))%nat with (t - S k)%nat by lia. exact G.
    + (* HGap2 *)
      clear Calm. assert (N2 : forall k, op_at t <> Some (RdData, k)) by congruence. assert (R : rd_irq t = false) by (apply Rn; congruence). destruct IH as [H L].
      assert (G : (if Z.testbit v 0 then stF (S t) else stC (S t)) /\ rlog (tr (S t)) (S t)).
      { assert (Es : d_sets (tr (S t)) = d_sets d) by (rewrite E1; destruct (o t); reflexivity).
        destruct (Z.testbit v 0); [destruct (stF_keeps t R N2 H) as [H' L']|destruct (stC_keeps t R N2 H) as [H' L']]; (split; [exact H'|apply (L' d); assumption]). }
      rewrite E1 in *. destruct (o t); [rewrite Epc; exact G|..]; destruct (Z.testbit v 0); exact G.
    + (* HRx *)
      clear Calm. assert (R : rd_irq t = false) by (apply Rn; congruence). destruct k as [|k].
      * destruct IH as [(F & X & Z) L]. assert (Bg : begins t RdData) by (unfold begins; fold (op_at t); rewrite <- Opn; reflexivity).
        assert (A : ak t = false) by (apply (p_ack Po t RdData); auto). rewrite A in E1.
        pose proof (p_take Po t F Bg 1%nat ltac:(lia)) as F'. replace (t + 1)%nat with (S t) in F' by lia.
        assert (Z' : rzr (S t) = false) by (rewrite (p_rzr Po), F'; reflexivity).
        rewrite E1. cbn [at_ d_pc d_sets]. replace (S t - 1)%nat with t by lia. split; [lia|]. split; [|split; [exact F|split; [exact Bg|]]].
        -- repeat split; try assumption. rewrite (rxi_keeps t R), X, Z. reflexivity.
        -- cbn [received]. rewrite Z', app_nil_r. unfold rlog in L. rewrite F in L. exact L.
      * destruct IH as (Lk & (F & X & Z) & F0 & Bg & L). pose proof (p_lat Po t (S k) (eq_sym Opn)) as Lt.
        pose proof (p_take Po (t - S k)%nat F0 Bg (S (S k)) ltac:(lia)) as F'. replace (t - S k + S (S k))%nat with (S t) in F' by lia.
        assert (Z' : rzr (S t) = false) by (rewrite (p_rzr Po), F'; reflexivity).
        assert (E' : stE (S t)) by (repeat split; try assumption; rewrite (rxi_keeps t R), X, Z; reflexivity).
        assert (L' : received (S t) = received t) by (cbn [received]; rewrite Z', app_nil_r; reflexivity).
        rewrite E1. destruct (ak t) eqn:A; cbn [at_ d_pc d_sets].
        -- split; [left; exact E'|]. unfold rlog. cbn [d_sets]. rewrite F', app_nil_r, L', L, (p_ddat Po t (S k) (eq_sym Opn) A). reflexivity.
        -- replace (S t - S (S k))%nat with (t - S k)%nat by lia. split; [lia|]. split; [exact E'|]. split; [exact F0|]. split; [exact Bg|]. rewrite L'. exact L.
    + (* HGap3 *)
      rewrite E1 in *. destruct (o t), (Z.testbit v 1), (d_busy d), (d_queue d); cbn [at_ d_pc d_sets] in *; rewrite ?Epc; apply Calm; auto.
    + (* HWrite *)
      rewrite E1 in *. destruct (ak t); apply Calm; auto.
Qed.
(** *** Consequences *)
(** A byte only ever reaches an idle transmitter. *)
Lemma never_dropped t : rdy t = true -> idle t = true.
Proof.
  intros R. rewrite (p_rdy Po) in R. pose proof (tinv_holds t) as T. unfold tinv in T. cbv zeta in T. unfold wr, op_at, pc_op in R.
  destruct (d_pc (tr t)) eqn:E; cbn [op_of] in R; try discriminate R; destruct k as [|[|k]]; try discriminate R.
  - destruct T as [(_ & _ & I & _) _]. exact I.
  - destruct T as [(_ & I & _) _]. exact I.
Qed.
Lemma given_len n : length (given n) = n. Proof. unfold given. rewrite map_length, seq_length. reflexivity. Qed.
Lemma given_prefix l r n : l ++ r = given n -> l = given (length l).
Proof.
  intros E. assert (L : (length l + length r = n)%nat) by (rewrite <- (given_len n), <- E, app_length; reflexivity).
  unfold given in *. rewrite <- L, seq_app, map_app in E. cbn [Nat.add] in E. apply (f_equal (firstn (length l))) in E. rewrite !firstn_app, map_length, seq_length, Nat.sub_diag, !firstn_O, !app_nil_r, firstn_all in E. rewrite firstn_all2 in E; [exact E|]. rewrite map_length, seq_length. apply le_n.
Qed.
Lemma sent_in_order t : accepted t = given (length (accepted t)).
Proof.
  pose proof (tinv_holds t) as T. unfold tinv in T. cbv zeta in T.
  destruct (d_pc (tr t)) as [| | | |[|[|k]]| | | |[|k]| | | |b [|[|k]]].
  1: destruct T as (_ & _ & _ & _ & _ & ->); reflexivity.
  all: try (destruct T as [_ T]; exact (given_prefix _ _ _ T)).
  all: destruct T as (_ & _ & _ & T); rewrite T, given_len; reflexivity.
Qed.
Lemma at_main t : d_pc (tr t) = Main ->
  accepted t ++ d_queue (tr t) = given (d_n (tr t)) /\
  (d_queue (tr t) <> [] -> idle t = false \/ txi t = true \/ rzt t = true) /\
  received t = d_sets (tr t) ++ (if full t then [rdata t] else []) /\
  (full t = true -> rxi t = true \/ rzr t = true).
Proof.
  intros E. pose proof (tinv_holds t) as T. pose proof (rinv_holds t) as R. unfold tinv in T. unfold rinv in R. cbv zeta in T, R. rewrite E in T, R.
  destruct T as [N L], R as [C R]. split; [exact L|]. split; [|split; [exact R|]].
  - intros Q. destruct N as [(_ & Q0 & _)|[_ [[I _]|[_ P]]]]; [contradiction|auto|]. unfold pnd in P. destruct (rzt t); auto.
  - intros F. destruct C as [(F0 & _)|[_ P]]; [congruence|]. destruct (rzr t); auto.
Qed.

(** *** Progress *)
Hypothesis (Done : forall t, idle t = false -> exists u, (t <= u)%nat /\ idle u = true).
(** Interrupts are not kept off forever, and [write_char] is called again and again. *)
Definition fair : Prop :=
  (forall t, exists u, (t <= u)%nat /\ d_pc (tr u) = Main /\ o u = Interrupt) /\
  (forall t, exists u, (t <= u)%nat /\ d_pc (tr u) = Cs /\ o u <> Wait).
Hypothesis (Fair : fair).
Lemma acc_le t u : (t <= u)%nat -> (length (accepted t) <= length (accepted u))%nat.
Proof. intros H. induction H as [|u _ IH]; [lia|]. cbn [accepted]. destruct (idle u && rdy u); [rewrite app_length; cbn; lia|lia]. Qed.
Lemma n_le t u : (t <= u)%nat -> (d_n (tr t) <= d_n (tr u))%nat.
Proof.
  intros H. induction H as [|u _ IH]; [lia|]. rewrite (p_step Po u). unfold dstep.
  destruct (d_pc (tr u)); try destruct (o u); try destruct (ak u); try destruct (irqs u); try destruct (d_busy (tr u)); try destruct (Nat.ltb _ _); try destruct (Z.testbit v 1); try destruct (d_queue (tr u)); cbn [at_ d_n]; lia.
Qed.
Lemma idle_same t u : (t <= u)%nat -> idle t = true -> length (accepted u) = length (accepted t) -> idle u = true.
Proof.
  intros H I. induction H as [|u H IH]; intros E; [exact I|]. pose proof (acc_le t u H) as L1. pose proof (acc_le u (S u) ltac:(lia)) as L2.
  specialize (IH ltac:(lia)). pose proof (p_idle Po u IH) as N. pose proof (p_rdy Po u) as R. destruct (wr u); [|exact N].
  exfalso. cbn [accepted] in E, L2. rewrite IH, R in E. cbn [andb] in E. rewrite app_length in E. cbn in E. lia.
Qed.
Lemma main_at t : exists u, (t <= u)%nat /\ d_pc (tr u) = Main.
Proof. destruct (proj1 Fair t) as (u & L & M & _). eauto. Qed.
Definition handling (s : nat) : Prop :=
  match d_pc (tr s) with
  | HTimer _ | HGap1 | HIrq O => txi s = true /\ d_queue (tr s) <> []
  | HIrq (S k) => txi (s - S k)%nat = true /\ d_queue (tr s) <> []
  | HGap2 v | HRx v _ | HGap3 v => Z.testbit v 1 = true /\ d_queue (tr s) <> []
  | HWrite _ O | HWrite _ 1%nat => True
  | _ => False
  end.
Lemma handling_next s : handling s -> handling (S s) \/ (length (accepted s) < length (accepted (S s)))%nat.
Proof.
  intros H. unfold handling in *. pose proof (p_step Po s) as E1. pose proof (tinv_holds s) as T. unfold tinv in T. cbv zeta in T. unfold dstep in E1.
  assert (Opn : pc_op todo (tr s) = op_at s) by reflexivity. unfold pc_op in Opn.
  assert (Rn : (forall k, op_at s <> Some (RdIrq, k)) -> rd_irq s = false).
  { intros K. unfold rd_irq. destruct (op_at s) as [[w k]|]; [|reflexivity]. destruct w; try reflexivity. destruct (K k eq_refl). }
  destruct (d_pc (tr s)) eqn:Epc; cbn [op_of] in Opn; try contradiction.
  - destruct H as [X Q]. left. pose proof (txi_keeps s (Rn ltac:(congruence))) as X'. rewrite X, orb_true_r in X'. rewrite E1. destruct (ak s); (split; [exact X'|exact Q]).
  - destruct H as [X Q]. left. pose proof (txi_keeps s (Rn ltac:(congruence))) as X'. rewrite X, orb_true_r in X'. rewrite E1. destruct (o s); [rewrite Epc|..]; (split; [exact X'|exact Q]).
  - left. destruct k as [|k].
    + rewrite (p_ack Po s RdIrq) in E1 by (first [unfold begins; fold (op_at s); rewrite <- Opn; reflexivity|auto]). rewrite E1. cbn [at_ d_pc d_queue]. replace (S s - 1)%nat with s by lia. exact H.
    + rewrite E1. destruct (ak s) eqn:A; cbn [at_ d_pc d_queue].
      * destruct H as [X Q]. split; [|exact Q]. rewrite (p_dirq Po s (S k) (eq_sym Opn) A), X. destruct (rxi _); reflexivity.
      * replace (S s - S (S k))%nat with (s - S k)%nat by lia. exact H.
  - left. rewrite E1. destruct (o s); [rewrite Epc; exact H|..]; destruct (Z.testbit v 0); exact H.
  - left. rewrite E1. destruct (ak s); exact H.
  - left. destruct H as [B Q]. rewrite B in T, E1. destruct T as [[(_ & Q0 & _)|(Bz & _)] _]; [contradiction|]. rewrite Bz in E1.
    rewrite E1. destruct (o s); [rewrite Epc; split; [exact B|exact Q]|..]; (destruct (d_queue (tr s)); [contradiction|exact I]).
  - destruct k as [|[|k]]; [left|right|contradiction].
    + rewrite (p_ack Po s (WrData b)) in E1 by (first [unfold begins; fold (op_at s); rewrite <- Opn; reflexivity|eauto]). rewrite E1. exact I.
    + assert (W : wr s = Some b) by (unfold wr; rewrite <- Opn; reflexivity). assert (R : rdy s = true) by (rewrite (p_rdy Po), W; reflexivity).
      cbn [accepted]. rewrite R, (never_dropped s R). cbn [andb]. rewrite app_length. cbn. lia.
Qed.
Lemma handling_ends s w : (s <= w)%nat -> handling s -> d_pc (tr w) = Main -> (length (accepted s) < length (accepted w))%nat.
Proof.
  intros L H M. assert (G : forall i, handling (s + i) \/ (length (accepted s) < length (accepted (s + i)))%nat).
  { induction i as [|i [IH|IH]]; [rewrite Nat.add_0_r; auto|..]; rewrite Nat.add_succ_r.
    - pose proof (acc_le s (s + i) ltac:(lia)). destruct (handling_next _ IH); [left; assumption|right; lia].
    - right. pose proof (acc_le (s + i) (S (s + i)) ltac:(lia)). lia. }
  specialize (G (w - s)%nat). replace (s + (w - s))%nat with w in G by lia. destruct G as [G|G]; [|exact G]. unfold handling in G. rewrite M in G. contradiction.
Qed.
Lemma backlog t : d_pc (tr t) = Main -> (length (accepted t) + length (d_queue (tr t)) = d_n (tr t))%nat.
Proof. intros M. destruct (at_main t M) as [L _]. rewrite <- app_length, L, given_len. reflexivity. Qed.
Lemma shrinks t : d_pc (tr t) = Main -> d_queue (tr t) <> [] -> exists u, (t <= u)%nat /\ (length (accepted t) < length (accepted u))%nat.
Proof.
  intros M Q. assert (exists u1, (t <= u1)%nat /\ idle u1 = true) as (u1 & L1 & I1). { destruct (idle t) eqn:I; [exists t; auto|]. apply (Done t I). }
  destruct (proj1 Fair (S u1)) as (u & Lu & Mu & Ou).
  pose proof (acc_le t u ltac:(lia)) as A1. destruct (Nat.eq_dec (length (accepted u)) (length (accepted t))) as [Ea|Na]; [|exists u; split; lia].
  assert (Ea1 : length (accepted u1) = length (accepted t)) by (pose proof (acc_le t u1 L1); pose proof (acc_le u1 u ltac:(lia)); lia).
  pose proof (idle_same u1 u ltac:(lia) I1 ltac:(lia)) as Iu. pose proof (idle_same u1 (u - 1) ltac:(lia) I1) as Iv.
  assert (Ev : length (accepted (u - 1)) = length (accepted u1)) by (pose proof (acc_le u1 (u - 1) ltac:(lia)); pose proof (acc_le (u - 1) u ltac:(lia)); lia).
  specialize (Iv Ev). assert (Qu : d_queue (tr u) <> []).
  { pose proof (backlog t M). pose proof (backlog u Mu). pose proof (n_le t u ltac:(lia)). intros E. rewrite E in *. destruct (d_queue (tr t)); [contradiction|]. cbn [length] in *. lia. }
  destruct (at_main u Mu) as (_ & P & _). assert (Zu : rzt u = false) by (replace u with (S (u - 1)) by lia; rewrite (p_rzt Po); replace (S (u - 1)) with u by lia; rewrite Iv, andb_false_r; reflexivity).
  assert (Xu : txi u = true) by (destruct (P Qu) as [P'|[P'|P']]; congruence).
  assert (H : handling (S u)).
  { pose proof (p_step Po u) as E1. unfold dstep in E1. rewrite Mu, Ou, (p_irq Po u) in E1 by (rewrite Xu; apply orb_true_r). unfold handling. rewrite E1. cbn [at_ d_pc d_queue]. split; [|exact Qu].
    rewrite txi_keeps; [rewrite Xu; apply orb_true_r|]. unfold rd_irq, op_at, pc_op. rewrite Mu. reflexivity. }
  destruct (main_at (S u)) as (w & Lw & Mw). pose proof (handling_ends (S u) w Lw H Mw) as G. exists w. split; [lia|]. pose proof (acc_le u (S u) ltac:(lia)). lia.
Qed.
Lemma reaches k : forall n t, (n < d_n (tr t))%nat -> (n - length (accepted t) < k)%nat -> exists u, (n < length (accepted u))%nat.
Proof.
  induction k as [|k IH]; intros n t Hn Hk; [lia|].
  destruct (main_at t) as (u & Lu & Mu). pose proof (acc_le t u Lu) as A. pose proof (n_le t u Lu) as N.
  destruct (Nat.lt_ge_cases n (length (accepted u))) as [L|L]; [eauto|].
  assert (Q : d_queue (tr u) <> []) by (pose proof (backlog u Mu) as B; intros E; rewrite E in B; cbn in B; lia).
  destruct (shrinks u Mu Q) as (w & Lw & G). destruct (Nat.lt_ge_cases n (length (accepted w))) as [L'|L']; [eauto|].
  apply (IH n w); [pose proof (n_le u w Lw); lia|lia].
Qed.
Lemma calls n : exists t, (n < d_n (tr t))%nat.
Proof.
  induction n as [|n (t & Ht)].
  - (* as below, from the start *)
    assert (G : exists t, (0 < d_n (tr t))%nat \/ (length (accepted t) >= d_n (tr t))%nat /\ d_n (tr t) = 0%nat) by (exists 0%nat; right; rewrite (p_start Po); cbn; lia).
    destruct G as (t & [G|[_ G]]); [eauto|]. destruct (proj2 Fair t) as (v & Lv & Cv & Ov). destruct (Nat.eq_dec (d_n (tr v)) 0) as [Zv|]; [|exists v; lia].
    pose proof (tinv_holds v) as T. unfold tinv in T. cbv zeta in T. rewrite Cv in T. destruct T as [_ Lg]. unfold log in Lg. rewrite Zv in Lg. apply app_eq_nil in Lg. destruct Lg as [_ Qv].
    pose proof (p_step Po v) as E1. unfold dstep in E1. rewrite Cv, Qv in E1. cbn [length Nat.ltb Nat.leb] in E1.
    destruct (o v) eqn:Eo; [contradiction|..]; (destruct (d_busy (tr v)); [exists (S v); rewrite E1; cbn [d_n]; lia|]).
    all: destruct (main_at (S v)) as (x & Lx & Mx); exists x.
    all: assert (G' : forall i, (0 < d_n (tr (S v + i)))%nat \/ match d_pc (tr (S v + i)) with MWrite _ | MSet => True | _ => False end) by
      (induction i as [|i [IH|IH]]; [rewrite Nat.add_0_r, E1; right; exact I|left; rewrite Nat.add_succ_r; pose proof (n_le (S v + i) (S (S v + i)) ltac:(lia)); lia|];
       rewrite Nat.add_succ_r, (p_step Po (S v + i)); unfold dstep; destruct (d_pc (tr (S v + i))) eqn:Ep; try contradiction; [destruct (ak (S v + i)); right; exact I|destruct (o (S v + i)); [right; rewrite Ep; exact I|left; cbn [d_n]; lia..]]).
    all: specialize (G' (x - S v)%nat); replace (S v + (x - S v))%nat with x in G' by lia; rewrite Mx in G'; destruct G' as [G'|[]]; exact G'.
  - destruct (reaches (S n) n t Ht ltac:(lia)) as (u & Hu).
    destruct (proj2 Fair (t + u)%nat) as (v & Lv & Cv & Ov). pose proof (n_le t v ltac:(lia)) as Nv. pose proof (acc_le u v ltac:(lia)) as Av.
    destruct (Nat.eq_dec (d_n (tr v)) (S n)) as [Zv|]; [|exists v; lia].
    pose proof (tinv_holds v) as T. unfold tinv in T. cbv zeta in T. rewrite Cv in T. destruct T as [_ Lg]. unfold log in Lg.
    assert (Qv : d_queue (tr v) = []). { apply (f_equal (@length Z)) in Lg. rewrite app_length, given_len in Lg. destruct (d_queue (tr v)); [reflexivity|cbn in Lg; lia]. }
    pose proof (p_step Po v) as E1. unfold dstep in E1. rewrite Cv, Qv in E1. cbn [length Nat.ltb Nat.leb] in E1.
    destruct (o v) eqn:Eo; [contradiction|..]; (destruct (d_busy (tr v)); [exists (S v); rewrite E1; cbn [d_n]; lia|]).
    all: destruct (main_at (S v)) as (x & Lx & Mx); exists x.
    all: assert (Nv' : (S n <= d_n (tr (S v)))%nat) by (rewrite E1; cbn [at_ d_n]; lia).
    all: assert (G' : forall i, (S n < d_n (tr (S v + i)))%nat \/ (S n <= d_n (tr (S v + i)))%nat /\ match d_pc (tr (S v + i)) with MWrite _ | MSet => True | _ => False end) by
      (induction i as [|i [IH|[Nn IH]]]; [rewrite Nat.add_0_r; right; split; [exact Nv'|rewrite E1; exact I]|left; rewrite Nat.add_succ_r; pose proof (n_le (S v + i) (S (S v + i)) ltac:(lia)); lia|];
       rewrite Nat.add_succ_r, (p_step Po (S v + i)); unfold dstep; destruct (d_pc (tr (S v + i))) eqn:Ep; try contradiction; [destruct (ak (S v + i)); right; (split; [exact Nn|exact I])|destruct (o (S v + i)); [right; rewrite Ep; (split; [exact Nn|exact I])|left; cbn [d_n]; lia..]]).
    all: specialize (G' (x - S v)%nat); replace (S v + (x - S v))%nat with x in G' by lia; rewrite Mx in G'; destruct G' as [G'|[_ []]]; exact G'.
Qed.
Lemma all_sent n : exists u, (n < length (accepted u))%nat.
Proof. destruct (calls n) as (t & Ht). apply (reaches (S n) n t Ht). lia. Qed.
(** The same for reception. *)
Definition handling_rx (s : nat) : Prop :=
  match d_pc (tr s) with
  | HTimer _ | HGap1 | HIrq O => rxi s = true
  | HIrq (S k) => rxi (s - S k)%nat = true
  | HGap2 v => Z.testbit v 0 = true
  | HRx _ _ => True
  | _ => False
  end.
Lemma sets_le t u : (t <= u)%nat -> (length (d_sets (tr t)) <= length (d_sets (tr u)))%nat.
Proof.
  intros H. induction H as [|u _ IH]; [lia|]. rewrite (p_step Po u). unfold dstep.
  destruct (d_pc (tr u)); try destruct (o u); try destruct (ak u); try destruct (irqs u); try destruct (d_busy (tr u)); try destruct (Nat.ltb _ _); try destruct (Z.testbit v 1); try destruct (d_queue (tr u)); cbn [at_ d_sets]; rewrite ?app_length; cbn [length]; lia.
Qed.
Lemma handling_rx_next s : handling_rx s -> handling_rx (S s) \/ (length (d_sets (tr s)) < length (d_sets (tr (S s))))%nat.
Proof.
  intros H. unfold handling_rx in *. pose proof (p_step Po s) as E1. unfold dstep in E1.
  assert (Opn : pc_op todo (tr s) = op_at s) by reflexivity. unfold pc_op in Opn.
  assert (Rn : (forall k, op_at s <> Some (RdIrq, k)) -> rd_irq s = false).
  { intros K. unfold rd_irq. destruct (op_at s) as [[w k]|]; [|reflexivity]. destruct w; try reflexivity. destruct (K k eq_refl). }
  destruct (d_pc (tr s)) eqn:Epc; cbn [op_of] in Opn; try contradiction.
  - left. pose proof (rxi_keeps s (Rn ltac:(congruence))) as X'. rewrite H, orb_true_r in X'. rewrite E1. destruct (ak s); exact X'.
  - left. pose proof (rxi_keeps s (Rn ltac:(congruence))) as X'. rewrite H, orb_true_r in X'. rewrite E1. destruct (o s); [rewrite Epc|..]; exact X'.
  - left. destruct k as [|k].
    + rewrite (p_ack Po s RdIrq) in E1 by (first [unfold begins; fold (op_at s); rewrite <- Opn; reflexivity|auto]). rewrite E1. cbn [at_ d_pc]. replace (S s - 1)%nat with s by lia. exact H.
    + rewrite E1. destruct (ak s) eqn:A; cbn [at_ d_pc].
      * rewrite (p_dirq Po s (S k) (eq_sym Opn) A), H. destruct (txi _); reflexivity.
      * replace (S s - S (S k))%nat with (s - S k)%nat by lia. exact H.
  - left. rewrite E1. destruct (o s); [rewrite Epc; exact H|..]; rewrite H; exact I.
  - rewrite E1. destruct (ak s); [right; cbn [d_sets]; rewrite app_length; cbn; lia|left; exact I].
Qed.
Lemma handling_rx_ends s w : (s <= w)%nat -> handling_rx s -> d_pc (tr w) = Main -> (length (d_sets (tr s)) < length (d_sets (tr w)))%nat.
Proof.
  intros L H M. assert (G : forall i, handling_rx (s + i) \/ (length (d_sets (tr s)) < length (d_sets (tr (s + i))))%nat).
  { induction i as [|i [IH|IH]]; [rewrite Nat.add_0_r; auto|..]; rewrite Nat.add_succ_r.
    - pose proof (sets_le s (s + i) ltac:(lia)). destruct (handling_rx_next _ IH); [left; assumption|right; lia].
    - right. pose proof (sets_le (s + i) (S (s + i)) ltac:(lia)). lia. }
  specialize (G (w - s)%nat). replace (s + (w - s))%nat with w in G by lia. destruct G as [G|G]; [|exact G]. unfold handling_rx in G. rewrite M in G. contradiction.
Qed.
Lemma recv_le t u : (t <= u)%nat -> (length (received t) <= length (received u))%nat.
Proof. intros H. induction H as [|u _ IH]; [lia|]. cbn [received]. rewrite app_length. lia. Qed.
Lemma all_stored t : exists u, (length (received t) <= length (d_sets (tr u)))%nat.
Proof.
  destruct (proj1 Fair (S t)) as (u & Lu & Mu & Ou). destruct (at_main u Mu) as (_ & _ & R & P). pose proof (recv_le t u ltac:(lia)) as L.
  destruct (full u) eqn:F; [|exists u; rewrite R, app_nil_r in L; exact L]. destruct (P eq_refl) as [X|Z].
  - assert (H : handling_rx (S u)).
    { pose proof (p_step Po u) as E1. unfold dstep in E1. rewrite Mu, Ou, (p_irq Po u) in E1 by (rewrite X; reflexivity). unfold handling_rx. rewrite E1. cbn [at_ d_pc].
      rewrite rxi_keeps; [rewrite X; apply orb_true_r|]. unfold rd_irq, op_at, pc_op. rewrite Mu. reflexivity. }
    destruct (main_at (S u)) as (w & Lw & Mw). pose proof (handling_rx_ends (S u) w Lw H Mw) as G. exists w. pose proof (sets_le u (S u) ltac:(lia)).
    rewrite R, app_length in L. cbn [length] in L. lia.
  - exists u. pose proof (recv_le t (u - 1) ltac:(lia)) as L'. destruct u as [|u]; [lia|]. cbn [received] in R. rewrite Z in R. apply app_inj_tail in R. destruct R as [R _].
    replace (S u - 1)%nat with u in L' by lia. rewrite R in L'. exact L'.
Qed.
(** At any time the stored characters are a prefix of those received, at most one short. *)
Lemma stored_prefix t : exists rest, received t = d_sets (tr t) ++ rest ++ (if full t then [rdata t] else []) /\ (length rest <= 1)%nat /\ (d_pc (tr t) = Main -> rest = []).
Proof.
  pose proof (rinv_holds t) as R. unfold rinv in R. cbv zeta in R.
  assert (G : rlog (tr t) t -> exists rest, received t = d_sets (tr t) ++ rest ++ (if full t then [rdata t] else []) /\ (length rest <= 1)%nat /\ (d_pc (tr t) = Main -> rest = [])) by (intros L; exists []; split; [exact L|split; [cbn; lia|reflexivity]]).
  destruct (d_pc (tr t)) as [| | | | | | | |[|k]| |v [|k]| |]; try (apply G, R). destruct R as (_ & (F & _) & _ & _ & R). eexists. rewrite F, app_nil_r. split; [exact R|]. split; [cbn; lia|discriminate].
Qed.
End Generic.

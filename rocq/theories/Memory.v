(** * C33: the core with a memory behaves like an ISA machine with flat memory *)
From Coq Require Import ZArith Lia Bool List.
From Verif Require Import Bits Ucode Cpu Isa Timed BitLemmas Wf Sym Blocks CsrBlocks DecodeOk Boundary Sim Main Obs PropsBus Observe PropsIsa.
Import ListNotations.
Open Scope Z_scope.

Section Mem.
(** Physical word backing a word address: the identity for a memory that fills the
    address space, [fun a => a mod depth] for a smaller one that is mirrored. *)
Variable phys : Z -> Z.

(** ** Specification: RV32I machine with a byte-addressed memory *)
Definition loc (b : Z) : Z := 4 * phys (b / 4) + b mod 4.
(** Little-endian read and write of [n] bytes at [b]. *)
Fixpoint peek (m : Z -> Z) (b : Z) (n : nat) : Z :=
  match n with O => 0 | S k => m (loc b) + 256 * peek m (b + 1) k end.
Fixpoint poke (m : Z -> Z) (b : Z) (n : nat) (v : Z) : Z -> Z :=
  match n with O => m | S k => poke (fun z => if z =? loc b then v mod 256 else m z) (b + 1) k (v / 256) end.

(** One instruction, with the values of the interrupt line in the three cycles after its fetch. *)
Definition flat_step (am : arch * (Z -> Z)) (i1 i2 i3 : bool) : arch * (Z -> Z) :=
  let (a, m) := am in
  let w := peek m (pc a) 4 in
  if int_enabled a && i1 then (interrupt a, m) else
  match decode w with
  | None => (exception SENTINEL a (illegal_cause SENTINEL w), m)
  | Some i =>
    if is_csr i && (int_enabled a && i2) then (interrupt a, m) else
    match i with
    | Load sz sgn rd rs1 off =>
        let ea := (rd_x a rs1 + off) mod 2 ^ 32 in
        if aligned sz ea then
          let v := peek m ea (Z.to_nat (bytes sz)) in
          (advance (wr_x a rd (if sgn then sext (8 * bytes sz) v mod 2 ^ 32 else v)), m)
        else (exception SENTINEL a 4, m)
    | Store sz rs1 rs2 off =>
        let ea := (rd_x a rs1 + off) mod 2 ^ 32 in
        if aligned sz ea then (advance a, poke m ea (Z.to_nat (bytes sz)) (rd_x a rs2))
        else (exception SENTINEL a 6, m)
    | _ => match exec SENTINEL a i3 i with Fetching a' => (a', m) | Accessing _ _ => (a, m) (* not reached *) end
    end
  end.

(** ** The memory slave *)
(** Memory contents (bytes) at the start of cycle [t]: the initial ones updated by every
    acknowledged write, in the lanes SEL selects. *)
Fixpoint slave_mem (s : state) (inp : nat -> input) (m0 : Z -> Z) (t : nat) : Z -> Z :=
  match t with
  | O => m0
  | S n => let x := run s inp n in let m := slave_mem s inp m0 n in
      if o_cyc x && ack (inp n) && o_we x
      then fun z => if (z / 4 =? phys (o_adr x)) && Z.testbit (o_sel x) (z mod 4) then byte (o_dat_w x) (z mod 4) else m z
      else m
  end.
(** Acknowledged reads return the memory contents in the selected lanes. *)
Definition memory_slave (s : state) (inp : nat -> input) (m0 : Z -> Z) : Prop :=
  forall t, let x := run s inp t in
  o_cyc x = true -> ack (inp t) = true -> o_we x = false ->
  forall i, 0 <= i < 4 -> Z.testbit (o_sel x) i = true -> byte (dat_r (inp t)) i = slave_mem s inp m0 t (4 * phys (o_adr x) + i).

(** The flat machine stepped at every acknowledged instruction fetch. *)
Fixpoint flat_at (s : state) (inp : nat -> input) (m0 : Z -> Z) (t : nat) : arch * (Z -> Z) :=
  match t with
  | O => (boot_arch s, m0)
  | S n => if o_cyc (run s inp n) && ack (inp n) && u_fetch (s_u (run s inp n))
           then flat_step (flat_at s inp m0 n) (irq (inp (n + 1)%nat)) (irq (inp (n + 2)%nat)) (irq (inp (n + 3)%nat))
           else flat_at s inp m0 n
  end.

(** ** Proof *)
Lemma loc_add ea i : 0 <= i -> ea mod 4 + i < 4 -> loc (ea + i) = 4 * phys (ea / 4) + (ea mod 4 + i).
Proof.
  intros Hi H. unfold loc. pose proof (Z.div_mod ea 4 ltac:(lia)) as E. pose proof (Z.mod_pos_bound ea 4 ltac:(lia)).
  replace (ea + i) with ((ea mod 4 + i) + (ea / 4) * 4) by lia. rewrite Z.div_add, Z.mod_add by lia.
  rewrite Z.div_small, Z.mod_small by lia. reflexivity.
Qed.
Lemma peek_ext m m' : (forall z, m z = m' z) -> forall n b, peek m b n = peek m' b n.
Proof. intros H. induction n as [|n IH]; intros b; [reflexivity|]. cbn [peek]. rewrite H, IH. reflexivity. Qed.

(** [peek] reads a field of any word holding the right bytes. *)
Lemma peek_fld m d b lo n : 0 <= lo -> (forall i, 0 <= i < Z.of_nat n -> fld d (lo + 8 * i) 8 = m (loc (b + i))) ->
  peek m b n = fld d lo (8 * Z.of_nat n).
Proof.
  revert b lo. induction n as [|n IH]; intros b lo Hl H.
  - cbn. unfold fld. rewrite Z.mod_1_r. reflexivity.
  - cbn [peek]. rewrite (IH (b + 1) (lo + 8)); [|lia|].
    2:{ intros i Hi. specialize (H (i + 1) ltac:(lia)). replace (lo + 8 + 8 * i) with (lo + 8 * (i + 1)) by lia. rewrite H. f_equal. f_equal. lia. }
    specialize (H 0 ltac:(lia)). rewrite Z.mul_0_r, !Z.add_0_r in H. rewrite <- H.
    replace (8 * Z.of_nat (S n)) with (8 + 8 * Z.of_nat n) by lia. rewrite (fld_split d lo 8) by lia. reflexivity.
Qed.

Lemma byte_in_lane sz ea i : aligned sz ea = true -> 0 <= i < bytes sz -> ea mod 4 + i < 4.
Proof. intros Al. apply (lane_cases (fun e n => 0 <= i < n -> e + i < 4) sz ea Al); intros; lia. Qed.

Lemma bytes_nat sz : Z.of_nat (Z.to_nat (bytes sz)) = bytes sz.
Proof. destruct sz; reflexivity. Qed.

Lemma load_peek m d sz sgn ea : aligned sz ea = true ->
  (forall i, 0 <= i < 4 -> Z.testbit (lanes sz ea) i = true -> byte d i = m (4 * phys (ea / 4) + i)) ->
  load_value sz sgn ea d = let v := peek m ea (Z.to_nat (bytes sz)) in if sgn then sext (8 * bytes sz) v mod 2 ^ 32 else v.
Proof.
  intros Al H. unfold load_value. cbv zeta.
  rewrite (peek_fld m d ea (8 * (ea mod 4))), bytes_nat; [reflexivity| |].
  - pose proof (Z.mod_pos_bound ea 4 ltac:(lia)). lia.
  - rewrite bytes_nat. intros i Hi. pose proof (byte_in_lane sz ea i Al Hi) as L. pose proof (Z.mod_pos_bound ea 4 ltac:(lia)).
    rewrite loc_add by lia. rewrite <- (H (ea mod 4 + i)); [unfold byte; f_equal; lia|lia|].
    rewrite lanes_addressed by (try assumption; lia). unfold addressed. apply andb_true_intro. split; [apply Z.leb_le|apply Z.ltb_lt]; lia.
Qed.

(** [poke] as one masked update. *)
Lemma poke_spec n : forall m b v z, b mod 4 + Z.of_nat n <= 4 ->
  poke m b n v z = if (z / 4 =? phys (b / 4)) && ((b mod 4 <=? z mod 4) && (z mod 4 <? b mod 4 + Z.of_nat n))
                   then fld v (8 * (z mod 4 - b mod 4)) 8 else m z.
Proof.
  induction n as [|n IH]; intros m b v z H.
  - cbn [poke]. rewrite Z.add_0_r. destruct (Z.leb_spec (b mod 4) (z mod 4)), (Z.ltb_spec (z mod 4) (b mod 4)); try lia; cbn; rewrite ?andb_false_r; reflexivity.
  - cbn [poke]. pose proof (Z.mod_pos_bound b 4 ltac:(lia)) as Hb. pose proof (Z.mod_pos_bound z 4 ltac:(lia)) as Hz.
    assert (Lz : z =? loc b = (z / 4 =? phys (b / 4)) && (z mod 4 =? b mod 4)).
    { unfold loc. pose proof (Z.div_mod z 4 ltac:(lia)). destruct (Z.eqb_spec (z / 4) (phys (b / 4))) as [E1|E1], (Z.eqb_spec (z mod 4) (b mod 4)) as [E2|E2]; cbn [andb];
      first [apply Z.eqb_eq; lia|apply Z.eqb_neq; intros E; apply E1 + apply E2]; lia. }
    destruct n as [|n].
    + cbn [poke]. rewrite Lz. change (Z.of_nat 1) with 1.
      destruct (Z.eqb_spec (z / 4) (phys (b / 4))); cbn [andb]; [|reflexivity].
      destruct (Z.eqb_spec (z mod 4) (b mod 4)) as [E|E].
      * rewrite E, Z.leb_refl, Z.sub_diag. destruct (Z.ltb_spec (b mod 4) (b mod 4 + 1)); [|lia]. cbn [andb].
        unfold fld. change (8 * 0) with 0. rewrite Z.pow_0_r, Z.div_1_r. reflexivity.
      * destruct (Z.leb_spec (b mod 4) (z mod 4)), (Z.ltb_spec (z mod 4) (b mod 4 + 1)); try lia; reflexivity.
    + assert (B1 : (b + 1) / 4 = b / 4 /\ (b + 1) mod 4 = b mod 4 + 1).
      { pose proof (Z.div_mod b 4 ltac:(lia)). replace (b + 1) with ((b mod 4 + 1) + (b / 4) * 4) by lia. rewrite Z.div_add, Z.mod_add by lia. rewrite Z.div_small, Z.mod_small by lia. lia. }
      destruct B1 as [B1 B2]. rewrite IH by lia. rewrite B1, B2, Lz.
      destruct (Z.eqb_spec (z / 4) (phys (b / 4))); cbn [andb]; [|reflexivity].
      rewrite !Nat2Z.inj_succ in *.
      destruct (Z.leb_spec (b mod 4 + 1) (z mod 4)) as [G|G]; cbn [andb].
      * destruct (Z.leb_spec (b mod 4) (z mod 4)); [|lia]. cbn [andb].
        destruct (Z.ltb_spec (z mod 4) (b mod 4 + 1 + Z.succ (Z.of_nat n))), (Z.ltb_spec (z mod 4) (b mod 4 + Z.succ (Z.succ (Z.of_nat n)))); try lia.
        -- unfold fld. rewrite Z.div_div by (try apply Z.pow_nonzero; try apply Z.pow_pos_nonneg; lia). f_equal. f_equal.
           change 256 with (2 ^ 8). rewrite <- Z.pow_add_r by lia. f_equal. lia.
        -- destruct (Z.eqb_spec (z mod 4) (b mod 4)); [lia|reflexivity].
      * destruct (Z.eqb_spec (z mod 4) (b mod 4)) as [E|E].
        -- rewrite E, Z.leb_refl, Z.sub_diag. destruct (Z.ltb_spec (b mod 4) (b mod 4 + Z.succ (Z.succ (Z.of_nat n)))); [|lia]. cbn [andb].
           unfold fld. change (8 * 0) with 0. rewrite Z.pow_0_r, Z.div_1_r. reflexivity.
        -- destruct (Z.leb_spec (b mod 4) (z mod 4)); [lia|]. reflexivity.
Qed.

Lemma poke_ext n : forall m m' b v, (forall z, m z = m' z) -> forall z, poke m b n v z = poke m' b n v z.
Proof.
  induction n as [|n IH]; intros m m' b v H z; [apply H|]. cbn [poke]. apply IH. intros y. destruct (y =? loc b); [reflexivity|apply H].
Qed.

Section Run.
Variables (s : state) (inp : nat -> input) (m0 : Z -> Z).
Hypothesis K : ok s inp.
Hypothesis Sl : memory_slave s inp m0.

(** The flat machine runs ahead of the bus during a data access. *)
Definition tracks (t : nat) : Prop :=
  let (a', m') := flat_at s inp m0 t in
  match machine s inp t with
  | Fetching a => a' = a /\ forall z, m' z = slave_mem s inp m0 t z
  | Accessing r k =>
      if q_we r then
        (forall d, k d = a') /\
        forall z, m' z = if (z / 4 =? phys (q_adr r)) && Z.testbit (q_sel r) (z mod 4) then byte (q_dat r) (z mod 4) else slave_mem s inp m0 t z
      else (forall z, m' z = slave_mem s inp m0 t z) /\
        forall d, (forall i, 0 <= i < 4 -> Z.testbit (q_sel r) i = true -> byte d i = slave_mem s inp m0 t (4 * phys (q_adr r) + i)) -> k d = a'
  end.

Lemma pc_word a x : rel a x -> (pc a) mod 4 = 0.
Proof. intros R. rewrite (pc_of_rel a x R). unfold pc_of. rewrite Z.mul_comm. apply Z.mod_mul. lia. Qed.

Lemma word_fld d : word d -> fld d 0 32 = d.
Proof. intros H. unfold fld, word in *. change (2 ^ 0) with 1. rewrite Z.div_1_r. apply Z.mod_small. assumption. Qed.

(** The word an acknowledged fetch returns. *)
Lemma fetched_word t a m : o_cyc (run s inp t) = true -> ack (inp t) = true -> machine s inp t = Fetching a ->
  (forall z, m z = slave_mem s inp m0 t z) -> dat_r (inp t) = peek m (pc a) 4.
Proof.
  intros C A M Hm. pose proof (bus_shows s inp K t C) as Sh. rewrite M in Sh. cbn [request] in Sh. destruct Sh. cbn [q_adr q_sel q_we q_dat] in *.
  pose proof (b_rel _ _ _ (fetch_boundary s inp K t a C A M)) as R. pose proof (pc_word a _ R) as P4.
  rewrite <- (word_fld (dat_r (inp t))) at 1 by apply K. symmetry. change 32 with (8 * Z.of_nat 4). apply peek_fld; [lia|].
  intros i Hi. rewrite loc_add by lia. rewrite P4, Hm. specialize (Sl t C A sh_we i ltac:(lia)). rewrite sh_sel, sh_adr in Sl.
  rewrite (Z.add_0_l i). rewrite <- Sl; [unfold byte; reflexivity|]. assert (i = 0 \/ i = 1 \/ i = 2 \/ i = 3) as [->|[->|[->| ->]]] by lia; reflexivity.
Qed.

Lemma lanes_z sz ea z : aligned sz ea = true -> Z.testbit (lanes sz ea) (z mod 4) = (ea mod 4 <=? z mod 4) && (z mod 4 <? ea mod 4 + bytes sz).
Proof. intros Al. apply lanes_addressed; [assumption|]. apply Z.mod_pos_bound. lia. Qed.

Lemma store_lane sz ea v z : aligned sz ea = true -> Z.testbit (lanes sz ea) (z mod 4) = true ->
  byte (store_data sz ea v) (z mod 4) = fld v (8 * (z mod 4 - ea mod 4)) 8.
Proof.
  intros Al H. rewrite lanes_z in H by assumption. apply andb_prop in H. destruct H as [H1 H2]. apply Z.leb_le in H1. apply Z.ltb_lt in H2.
  replace (z mod 4) with (ea mod 4 + (z mod 4 - ea mod 4)) at 1 by lia. rewrite store_byte by lia. reflexivity.
Qed.

Lemma tracks_all t : tracks t.
Proof.
  induction t as [|t IH].
  - split; [reflexivity|]. intros; reflexivity.
  - unfold tracks in *. cbn [flat_at].
    destruct (o_cyc (run s inp t) && ack (inp t)) eqn:Q.
    2:{ rewrite andb_false_l || cbn [andb]. rewrite machine_noack by assumption. cbn [slave_mem]. cbv zeta. rewrite Q. cbn [andb]. exact IH. }
    apply andb_prop in Q. destruct Q as [C A]. cbn [andb].
    pose proof (fetch_iff s inp K t C) as Fi. pose proof (bus_shows s inp K t C) as Sh.
    rewrite machine_ack by assumption.
    assert (Sm : slave_mem s inp m0 (S t) = if o_we (run s inp t) then fun z => if (z / 4 =? phys (o_adr (run s inp t))) && Z.testbit (o_sel (run s inp t)) (z mod 4)
         then byte (o_dat_w (run s inp t)) (z mod 4) else slave_mem s inp m0 t z else slave_mem s inp m0 t).
    { cbn [slave_mem]. rewrite C, A. reflexivity. }
    rewrite Sm. destruct (flat_at s inp m0 t) as [a' m'].
    destruct (machine s inp t) as [a|r k] eqn:M; rewrite Fi; cbn [complete].
    + destruct IH as [-> Hm]. pose proof (fetched_word t a m' C A M Hm) as Hw.
      destruct Sh. cbn [request q_adr q_sel q_we q_dat] in *. rewrite sh_we.
      unfold irqs, flat_step. rewrite <- Hw. unfold fetched.
      destruct (int_enabled a && irq (inp (t + 1)%nat)); [split; [reflexivity|assumption]|].
      destruct (decode (dat_r (inp t))) as [i|]; [|split; [reflexivity|assumption]].
      destruct (is_csr i && _); [split; [reflexivity|assumption]|].
      destruct i; cbn [exec]; try (split; [reflexivity|assumption]).
      * cbv zeta. destruct (aligned sz _) eqn:Al; [|split; [reflexivity|assumption]]. cbn [q_we q_adr q_sel q_dat]. split; [assumption|].
        intros d Hd. rewrite (load_peek m' d sz sgn _ Al); [reflexivity|]. intros i Hi Ht. rewrite Hm. apply Hd; assumption.
      * cbv zeta. destruct (aligned sz _) eqn:Al; [|split; [reflexivity|assumption]]. cbn [q_we q_adr q_sel q_dat]. split; [reflexivity|].
        intros z. rewrite poke_spec. 2:{ rewrite bytes_nat. apply (lane_cases (fun e n => e + n <= 4) sz _ Al); intros; lia. }
        rewrite bytes_nat, <- (lanes_z sz _ z Al). destruct (_ =? phys _); cbn [andb]; [|apply Hm].
        destruct (Z.testbit (lanes sz _) (z mod 4)) eqn:Tl; [|apply Hm]. symmetry. apply store_lane; assumption.
    + cbn [request] in Sh. destruct Sh. destruct (q_we r) eqn:We; rewrite sh_we.
      * destruct IH as [Hk Hm]. split; [symmetry; apply Hk|]. intros z. rewrite Hm, sh_adr, sh_sel, sh_dat by reflexivity. reflexivity.
      * destruct IH as [Hm Hk]. split; [|assumption]. symmetry. apply Hk. intros i Hi Ht.
        rewrite <- sh_adr. rewrite <- sh_sel in Ht. apply Sl; assumption.
Qed.
End Run.

(** C33.  In every cycle [t] in which an instruction fetch is acknowledged, the fetched word
    is the one in the flat machine's memory, the flat machine's memory is the slave's, and
    in the next cycle the core's registers are the flat machine's. *)
Theorem C33_flat_memory : forall s inp m0, ok s inp -> memory_slave s inp m0 ->
  forall t w, fetch_done s inp t w ->
  let (a, m) := flat_at s inp m0 t in
  w = peek m (pc a) 4 /\ (forall z, m z = slave_mem s inp m0 t z) /\
  let x := run s inp (S t) in
  (forall r, 0 <= r < 32 -> x_of x r = rd_x a r) /\ pc_of x = pc a /\
  mie_of x = mie a /\ mpie_of x = mpie a /\ meie_of x = meie a /\
  mtvec_of x = mtvec a /\ mscratch_of x = mscratch a /\ mepc_of x = mepc a /\ mcause_of x = mcause a.
Proof.
  intros s inp m0 K Sl t w F. pose proof (tracks_all s inp m0 K Sl t) as T. unfold tracks in T.
  destruct (C02_registers_match_reference s inp K t w F) as (a & M & R). rewrite M in T.
  destruct (flat_at s inp m0 t) as [a' m]. destruct T as [-> Hm]. split; [|split; [assumption|exact R]].
  destruct F as (C & U & A & D). rewrite <- D. eapply fetched_word; eassumption.
Qed.
End Mem.

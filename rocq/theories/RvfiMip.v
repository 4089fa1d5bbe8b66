(** * What RVFI reports for MIP, and for MSTATUS when an instruction traps or is MRET *)
From Coq Require Import ZArith Lia Bool List.
From Verif Require Import Bits Ucode Cpu Isa Timed BitLemmas Wf Sym Blocks CsrBlocks DecodeOk Boundary Sim Main Obs PropsBus PropsInv Observe PropsIsa PropsFrame Rvfi RvfiTrace RvfiProps RvfiRd RvfiCsr.
Import ListNotations.
Open Scope Z_scope.

(** ** Static facts *)
Definition trap_set := Eval vm_compute in clos (fun _ => false) 3000 [240] [].
Definition epi_set := Eval vm_compute in clos (fun _ => false) 3000 [54; 182] [].
Definition mret_set := Eval vm_compute in clos (fun _ => false) 3000 [248] [].
Definition still_entries := [0xd0; 0x50; 0x30; 0xf8] ++
  map shifti_entry [SLL; SRL; SRA] ++ map opimm_entry [ADD; SLT; SLTU; XOR; OR; AND] ++ map shift_entry [SLL; SRL; SRA] ++ map op_entry [ADD; SUB; SLT; SLTU; XOR; OR; AND]
  ++ risky_entries ++ [0x25; 0x28].
Definition still_set := Eval vm_compute in clos (fun _ => false) 3000 still_entries [].
Lemma trap_closed : closed (fun _ => false) trap_set = true. Proof. vm_compute. reflexivity. Qed.
Lemma epi_closed : closed (fun _ => false) epi_set = true. Proof. vm_compute. reflexivity. Qed.
Lemma mret_closed : closed (fun _ => false) mret_set = true. Proof. vm_compute. reflexivity. Qed.
Lemma still_closed : closed (fun _ => false) still_set = true. Proof. vm_compute. reflexivity. Qed.
Lemma still_start : forallb (fun k => memb k still_set) still_entries = true. Proof. vm_compute. reflexivity. Qed.
Lemma trap_facts : forallb (fun k => negb (checks k) && negb (k =? 54) && negb (k =? 182) && (negb (u_mreq (rom k)) || negb (moves_mstatus k))) trap_set = true. Proof. vm_compute. reflexivity. Qed.
Lemma epi_facts : forallb (fun k => negb (checks k)) epi_set = true. Proof. vm_compute. reflexivity. Qed.
Lemma still_facts : forallb (fun k => negb (writes_csr k)) still_set = true. Proof. vm_compute. reflexivity. Qed.
Lemma mret_facts : forallb (fun k => negb (moves_mstatus k) || (k =? 252)) mret_set = true. Proof. vm_compute. reflexivity. Qed.
Lemma write_places : forallb (fun k => in_reset k || negb (writes_csr k) || (k =? 54) || (k =? 182) ||
  match u_csel (rom k) with CS_TRG_CSR => (bits (u_target (rom k)) 0 4 =? 9) || (bits (u_target (rom k)) 0 4 =? 10) | _ => false end) live_list = true.
Proof. vm_compute. reflexivity. Qed.
Lemma still_in_entries i : is_csr i = false -> i <> Ecall -> i <> Ebreak -> In (entry i) still_entries.
Proof.
  intros C N1 N2. destruct (risky i) eqn:R. { unfold still_entries. rewrite !in_app_iff. do 5 right. left. apply risky_in. assumption. }
  destruct i as [| | | |cc ? ? ?|sz sg ? ? ?|sz ? ? ?|f ? ? ?|f ? ? ?| | | | | |]; try discriminate; try contradiction; cbn [entry]; try (destruct f); vm_compute; tauto.
Qed.

(** When, counted from the fetch of a CSR instruction, it writes its CSR. *)
Definition write_delay (f : csr_fn) : nat := match f with CSRRW => 5 | CSRRS => 8 | CSRRC => 9 end.

Lemma levels_S m L : levels (S m) L = flat_map nsucc (filter (fun k => negb (u_mreq (rom k))) (levels m L)).
Proof. revert L. induction m as [|m IH]; intros L; [reflexivity|]. exact (IH _). Qed.

Section P.
Variables (s : state) (inp : nat -> input) (v : rvfi).
Hypothesis B : bus_ok s inp.
Hypothesis V : rvfi_fresh v.
Variables (t t' : nat) (w : Z).
Hypothesis X : executes s inp t t' w.
Let K : ok s inp := bus_ok_ok s inp B.
Notation vr t := (vrun v s inp t).
Notation com_t := (win_commit_t s inp K t t' w X).
Notation com_u := (win_commit s inp K t t' w X).
Notation nor := (no_rst s inp K).

Lemma hold_next c u : (t < u < t')%nat -> v_hold (vr (S u)) c = csr_written (run s inp u) c || v_hold (vr u) c.
Proof. intros Hu. rewrite vrun_S. unfold rvfi_step. rewrite nor. cbn [v_hold]. rewrite com_u by lia. destruct (csr_written _ _); reflexivity. Qed.
Lemma hold_from c u : (t < u <= t')%nat -> v_hold (vr u) c = true -> exists u0, (t < u0 < u)%nat /\ csr_written (run s inp u0) c = true.
Proof.
  intros Hu. replace u with (S t + (u - S t))%nat by lia. assert (Hm : (u - S t <= t' - S t)%nat) by lia. revert Hm. generalize (u - S t)%nat as m. clear u Hu.
  induction m as [|m IH]; intros Hm H.
  - rewrite Nat.add_0_r in H. rewrite (hold_start s inp v B t t' w X) in H. discriminate.
  - rewrite Nat.add_succ_r in H. rewrite hold_next in H by lia. apply orb_prop in H. destruct H as [H|H].
    + exists (S t + m)%nat. split; [lia|exact H].
    + destruct (IH ltac:(lia) H) as (u0 & Hu & W). exists u0. split; [lia|exact W].
Qed.
Lemma reg_next c u : in_ram c = false -> v_csr_rdata (vr (S u)) c = if v_hold (vr u) c then v_csr_rdata (vr u) c else csr_reg (run s inp u) (inp u) c.
Proof. intros R. rewrite vrun_S. unfold rvfi_step. rewrite nor. cbn [v_csr_rdata]. rewrite R. reflexivity. Qed.

Lemma unheld c : in_ram c = false -> v_hold (vr t') c = false -> v_csr_rdata (vr t') c = csr_reg (run s inp (t' - 1)) (inp (t' - 1)%nat) c.
Proof.
  intros R H. pose proof (win_long s inp K t t' w X) as L. replace t' with (S (t' - 1)) in H |- * at 1 by lia.
  rewrite hold_next in H by lia. apply orb_false_elim in H. rewrite reg_next by assumption. rewrite (proj2 H). reflexivity.
Qed.
Lemma held_at c u : in_ram c = false -> (t < u < t')%nat -> csr_written (run s inp u) c = true -> (forall u0, (t < u0 < u)%nat -> csr_written (run s inp u0) c = false) ->
  v_csr_rdata (vr t') c = csr_reg (run s inp u) (inp u) c.
Proof.
  intros R Hu W N.
  assert (H0 : v_hold (vr u) c = false).
  { destruct (v_hold (vr u) c) eqn:E; [|reflexivity]. destruct (hold_from c u ltac:(lia) E) as (u0 & H0 & W0). rewrite N in W0 by lia. discriminate. }
  assert (P : forall m, (S u + m <= t')%nat -> v_hold (vr (S u + m)) c = true /\ v_csr_rdata (vr (S u + m)) c = csr_reg (run s inp u) (inp u) c).
  { induction m as [|m IH]; intros Hm.
    - rewrite Nat.add_0_r, hold_next, reg_next, W, H0 by (lia || assumption). split; reflexivity.
    - destruct (IH ltac:(lia)) as [I1 I2]. rewrite Nat.add_succ_r, hold_next, reg_next, I1, orb_true_r by (lia || assumption). split; [reflexivity|exact I2]. }
  destruct (P (t' - S u)%nat ltac:(lia)) as [_ Q]. replace (S u + (t' - S u))%nat with t' in Q by lia. exact Q.
Qed.

Lemma written_place u c : (t < u <= t')%nat -> csr_written (run s inp u) c = true -> (exists k, (k = 54 \/ k = 182) /\ seq_inv k (run s inp u)) \/ c = 9 \/ c = 10.
Proof.
  intros Hu W. destruct (win_pos s inp K t t' w X u Hu) as (k & Q & R). pose proof (on_live _ write_places k (si_live _ _ Q)) as F. cbv beta in F. rewrite R in F. cbn [orb] in F.
  unfold csr_written in W. apply andb_prop in W. destruct W as [W1 W2]. destruct (si_at _ _ Q) as (A1 & _). rewrite A1 in W1, W2. unfold writes_csr in F. rewrite W1 in F. cbn [negb orb] in F.
  destruct (Z.eqb_spec k 54); [left; eauto|]. destruct (Z.eqb_spec k 182); [left; eauto|]. cbn [orb] in F. right.
  unfold csr_adr in W2. destruct (u_csel (rom k)); [discriminate F|]. apply Z.eqb_eq in W2. rewrite W2 in F. apply orb_prop in F. rewrite !Z.eqb_eq in F. exact F.
Qed.
(** Positions after an exception was raised. *)
Lemma after_raise r : (t < r <= t')%nat -> exc_now (run s inp r) (inp r) = true -> forall u, (r < u <= t')%nat -> exists k, In k trap_set /\ seq_inv k (run s inp u).
Proof.
  intros Hr E u Hu. destruct (win_pos s inp K t t' w X r Hr) as (k & Q & _). pose proof (pos_exc s inp K k _ Q E) as Q1.
  replace u with (S r + (u - S r))%nat by lia. assert (Hm : (u - S r <= t' - S r)%nat) by lia. revert Hm. generalize (u - S r)%nat as m. clear u Hu.
  induction m as [|m IH]; intros Hm; [rewrite Nat.add_0_r; exists 240; split; [vm_compute; tauto|exact Q1]|].
  destruct (IH ltac:(lia)) as (j & I & Qj). rewrite Nat.add_succ_r. replace (S (S r + m)) with (S r + m + 1)%nat by lia.
  pose proof trap_facts as F. rewrite forallb_forall in F. specialize (F j I). do 3 (apply andb_prop in F; destruct F as [F _]). apply negb_true_iff in F.
  apply (walk s inp K (fun _ => false) trap_set j _ 1 trap_closed Qj I).
  intros u1 Hu1. assert (u1 = (S r + m)%nat) by lia. subst u1. split; [split|reflexivity]; [|apply com_u; lia].
  destruct (exc_now (run s inp (S r + m)) (inp (S r + m)%nat)) eqn:Y; [|reflexivity]. rewrite (exc_checks j _ _ Qj Y) in F. discriminate.
Qed.
Lemma trap_writes u c : raised s inp t t' -> (t < u <= t')%nat -> csr_written (run s inp u) c = true -> c = 9 \/ c = 10.
Proof.
  intros (r & Hr & E) Hu W. destruct (written_place u c Hu W) as [(k & Hk & Q)|H]; [exfalso|exact H].
  assert (Ik : In k epi_set) by (destruct Hk; subst k; vm_compute; tauto).
  assert (Cc : forall m j, (u + m <= t')%nat -> seq_inv j (run s inp (u + m)) -> In j epi_set -> exc_now (run s inp (u + m)) (inp (u + m)%nat) = false).
  { intros m j _ Qj Ij. destruct (exc_now (run s inp (u + m)) (inp (u + m)%nat)) eqn:Y; [|reflexivity]. pose proof (exc_checks j _ _ Qj Y) as Y'. pose proof epi_facts as F. rewrite forallb_forall in F. specialize (F j Ij). rewrite Y' in F. discriminate. }
  destruct (Nat.lt_trichotomy r u) as [L|[->|L]].
  - destruct (after_raise r Hr E u ltac:(lia)) as (j & Ij & Qj). assert (j = k) by (eapply at_unique; [apply Qj|apply Q]). subst j.
    pose proof trap_facts as F. rewrite forallb_forall in F. specialize (F k Ij). destruct Hk; subst k; discriminate F.
  - specialize (Cc 0%nat k). rewrite Nat.add_0_r in Cc. rewrite Cc in E by (assumption || lia). discriminate.
  - assert (P : forall m, (u + m <= t')%nat -> exists j, In j epi_set /\ seq_inv j (run s inp (u + m))).
    { induction m as [|m IH]; intros Hm; [rewrite Nat.add_0_r; eauto|]. destruct (IH ltac:(lia)) as (j & Ij & Qj). rewrite Nat.add_succ_r. replace (S (u + m)) with (u + m + 1)%nat by lia.
      apply (walk s inp K (fun _ => false) epi_set j _ 1 epi_closed Qj Ij). intros u1 Hu1. assert (u1 = (u + m)%nat) by lia. subst u1.
      split; [split|reflexivity]; [eapply Cc; try eassumption; lia|apply com_u; lia]. }
    destruct (P (r - u)%nat ltac:(lia)) as (j & Ij & Qj). specialize (Cc (r - u)%nat j ltac:(lia) Qj Ij). replace (u + (r - u))%nat with r in Cc by lia. congruence.
Qed.

(** Which instructions the harness sees writing a CSR other than by a trap. *)
Lemma plain_writes u c : ~ traps s inp t w (run s inp (S t)) -> (t < u <= t')%nat -> csr_written (run s inp u) c = true ->
  exists f rd g n, decode w = Some (Csr f rd g n) /\ ro_zero n = false /\ csr_writes f g = true /\ In n impl_csrs /\ c = csr_enc n.
Proof.
  intros NT Hu W. pose proof (no_exc s inp K t t' w X NT) as Nx. pose proof (win_long s inp K t t' w X) as L.
  destruct (decoded s inp t w NT) as (i & D & N1 & N2). destruct (win_start s inp K t t' w X) as (a & M & Bd & Q).
  assert (Fr : forall k u0, (t < u0 <= t')%nat -> seq_inv k (run s inp u0) -> In k still_entries -> (u0 <= u)%nat -> False).
  { intros k u0 H0 Qk Ik Hu0. pose proof still_start as Cs. rewrite forallb_forall in Cs. specialize (Cs _ Ik). apply memb_In in Cs.
    destruct (walk s inp K (fun _ => false) still_set k u0 (u - u0) still_closed Qk Cs) as (k' & I' & Q').
    { intros u1 Hu1. split; [split; [apply Nx; lia|apply com_u; lia]|reflexivity]. }
    replace (u0 + (u - u0))%nat with u in Q' by lia. pose proof still_facts as F. rewrite forallb_forall in F. specialize (F k' I').
    destruct (si_at _ _ Q') as (A1 & _). unfold csr_written in W. rewrite A1 in W. unfold writes_csr in F. destruct (csr_is_write (u_csr (rom k'))); [discriminate F|discriminate W]. }
  assert (U1 : u <> S t). { intros ->. rewrite (first_written s inp B t t' w X) in W. discriminate. }
  destruct (is_csr i) eqn:C.
  - destruct i as [| | | | | | | | | | | | | |f rd g n]; try discriminate C.
    pose proof (csr_long s inp B t t' w X f rd g n D (Nx (S t) ltac:(lia))) as L2.
    destruct (at_tramp s inp K t w a f rd g n Bd D (Nx (S t) ltac:(lia))) as (Q1 & _ & At). destruct (At (Nx (S (S t)) ltac:(lia))) as (imm & Hg & Q2 & En).
    assert (U2 : u <> S (S t)). { intros ->. destruct (si_at _ _ Q1) as (A1 & _). unfold csr_written in W. rewrite A1 in W. discriminate. }
    destruct (ro_zero n) eqn:Z0. { exfalso. apply (Fr 0x25 (S (S (S t))) ltac:(lia) Q2); [vm_compute; tauto|lia]. }
    destruct (csr_writes f g) eqn:Wr.
    + destruct (En eq_refl) as [I En']. exists f, rd, g, n. repeat (apply conj); try assumption; try reflexivity.
      unfold csr_written in W. apply andb_prop in W. destruct W as [W1 W2]. destruct (win_pos s inp K t t' w X u Hu) as (k & Qk & R).
      assert (Qs : u_csel (s_u (run s inp u)) = CS_INSN_CSR).
      { pose proof quiet_start as Cs. rewrite forallb_forall in Cs. assert (Iq : In (csr_entry f imm (fld w 7 5) (fld w 15 5)) quiet_entries) by (unfold quiet_entries; rewrite !in_app_iff; do 6 right; apply (csr_in false)).
        specialize (Cs _ Iq). apply memb_In in Cs.
        destruct (walk s inp K (fun _ => false) quiet_set _ (S (S (S t))) (u - S (S (S t))) quiet_closed Q2 Cs) as (k' & I' & Q').
        { intros u1 Hu1. split; [split; [apply Nx; lia|apply com_u; lia]|reflexivity]. }
        replace (S (S (S t)) + (u - S (S (S t))))%nat with u in Q' by lia. assert (k' = k) by (eapply at_unique; [apply Q'|apply Qk]). subst k'.
        pose proof (on_live _ own_write k (si_live _ _ Qk)) as T. cbv beta in T. rewrite R in T. destruct (si_at _ _ Qk) as (A1 & _). rewrite A1 in W1 |- *. unfold writes_csr in T. rewrite W1 in T. cbn [orb negb] in T.
        pose proof quiet_moves as Qm. rewrite forallb_forall in Qm. specialize (Qm k I'). apply andb_prop in Qm. destruct Qm as [_ Qm].
        destruct (Z.leb_spec 240 k); [lia|]. cbn [orb] in T. destruct (u_csel (rom k)); [reflexivity|discriminate T]. }
      unfold csr_adr in W2. rewrite Qs in W2. apply Z.eqb_eq in W2. rewrite <- W2. apply (enc_is s inp B t t' w X); [lia|exact En'].
    + exfalso. apply (Fr (csr_entry f imm (fld w 7 5) (fld w 15 5)) (S (S (S t))) ltac:(lia) Q2); [|lia].
      rewrite Hg in Wr. unfold csr_writes in Wr. unfold csr_entry. destruct f; [discriminate Wr| |]; destruct imm; apply negb_false_iff in Wr; rewrite Wr; vm_compute; tauto.
  - pose proof (at_entry s inp K t t' w X a i Bd D C (Nx (S t) ltac:(lia))) as Q1. exfalso. apply (Fr _ (S (S t)) ltac:(lia) Q1); [|lia]. apply still_in_entries; assumption.
Qed.

(** The cycle in which a CSR instruction writes its CSR, and that it does so in no other. *)
Lemma writes_at f rd g n : ~ traps s inp t w (run s inp (S t)) -> decode w = Some (Csr f rd g n) -> ro_zero n = false -> csr_writes f g = true ->
  (t + write_delay f < t')%nat /\ csr_written (run s inp (t + write_delay f)) (csr_enc n) = true /\
  forall u, (t < u < t + write_delay f)%nat -> csr_written (run s inp u) (csr_enc n) = false.
Proof.
  intros NT D Z0 Wr. pose proof (no_exc s inp K t t' w X NT) as Nx. pose proof (win_long s inp K t t' w X) as L.
  destruct (win_start s inp K t t' w X) as (a & M & Bd & Q). pose proof (csr_long s inp B t t' w X f rd g n D (Nx (S t) ltac:(lia))) as L2.
  destruct (at_tramp s inp K t w a f rd g n Bd D (Nx (S t) ltac:(lia))) as (Q1 & _ & At).
  destruct (At (Nx (S (S t)) ltac:(lia))) as (imm & Hg & Q2 & En). rewrite Z0 in Q2. destruct (En Z0) as [_ En'].
  rewrite Hg in Wr.
  (* one microinstruction after the other *)
  assert (St : forall u k n, (S (S (S t)) <= u <= t')%nat -> seq_inv k (run s inp u) -> k <> 1 -> k <> 36 -> u_mreq (rom k) = false -> nsucc k = [n] ->
               seq_inv n (run s inp (S u)) /\ (S u <= t')%nat).
  { intros u k m Hu Qk H1 H36 Hr Hn. assert (Lt : (u < t')%nat).
    { destruct (Nat.eq_dec u t') as [->|]; [|lia]. exfalso. destruct X as (_ & _ & (w' & Cy & _) & _). rewrite (pos_cyc s inp k _ Qk) in Cy. congruence. }
    split; [|lia]. destruct (pos_step s inp K k u Qk) as (m' & I & Qn); try assumption; [apply Nx; lia|apply com_u; lia|]. rewrite Hn in I. destruct I as [<-|[]]. exact Qn. }
  assert (Nw : forall u k c, seq_inv k (run s inp u) -> writes_csr k = false -> csr_written (run s inp u) c = false).
  { intros u k c Qk Wk. destruct (si_at _ _ Qk) as (A1 & _). unfold csr_written. rewrite A1. unfold writes_csr in Wk. rewrite Wk. reflexivity. }
  assert (Yw : forall u k, (S (S (S t)) <= u <= t')%nat -> seq_inv k (run s inp u) -> (k = 54 \/ k = 182) -> (u < t')%nat /\ csr_written (run s inp u) (csr_enc n) = true).
  { intros u k Hu Qk Hk. assert (Wt : csr_written (run s inp u) (csr_enc n) = true).
    { destruct (si_at _ _ Qk) as (A1 & _). unfold csr_written. rewrite A1. assert (Cs : csr_is_write (u_csr (rom k)) = true /\ u_csel (rom k) = CS_INSN_CSR) by (destruct Hk; subst k; split; reflexivity).
      destruct Cs as [C1 C2]. rewrite C1. unfold csr_adr. rewrite C2. apply Z.eqb_eq. apply (enc_is s inp B t t' w X); [lia|exact En']. }
    split; [|exact Wt]. destruct (Nat.eq_dec u t') as [->|]; [|lia]. rewrite (end_written s inp B t t' w X) in Wt. discriminate. }
  assert (E1 : csr_written (run s inp (S t)) (csr_enc n) = false) by apply (first_written s inp B t t' w X).
  assert (E2 : csr_written (run s inp (S (S t))) (csr_enc n) = false) by (apply (Nw _ 36); [exact Q1|reflexivity]).
  assert (En2 : In (csr_entry f imm (fld w 7 5) (fld w 15 5)) match f with CSRRW => [0x2b; 0x26; 0x2c; 0x27] | CSRRS => [0x2d; 0x29] | CSRRC => [0x2e; 0x2a] end).
  { unfold csr_entry. unfold csr_writes in Wr. destruct f; destruct imm; try (apply negb_true_iff in Wr; rewrite Wr); try destruct (fld w 7 5 =? 0); cbn; tauto. }
  set (e := csr_entry f imm (fld w 7 5) (fld w 15 5)) in *. clearbody e. clear - St Nw Yw E1 E2 En2 Q2 L2.
  assert (Go : forall d last, (2 <= d)%nat -> forallb (fun m => match levels m [e] with [k] => negb (k =? 1) && negb (k =? 36) && negb (u_mreq (rom k)) && negb (writes_csr k) && (Z.of_nat (length (nsucc k)) =? 1) | _ => false end) (seq 0 d) = true ->
               levels d [e] = [last] -> (last = 54 \/ last = 182) ->
               (t + (3 + d) < t')%nat /\ csr_written (run s inp (t + (3 + d))) (csr_enc n) = true /\
               forall u, (t < u < t + (3 + d))%nat -> csr_written (run s inp u) (csr_enc n) = false).
  { intros d last Hd F Hl Hk. rewrite forallb_forall in F.
    assert (P : forall m, (m <= d)%nat -> exists k, levels m [e] = [k] /\ seq_inv k (run s inp (S (S (S t)) + m)) /\ (S (S (S t)) + m <= t')%nat).
    { induction m as [|m IH]; intros Hm.
      - exists e. rewrite Nat.add_0_r. cbn [levels]. split; [reflexivity|]. split; [exact Q2|lia].
      - destruct (IH ltac:(lia)) as (k & El & Qk & Lk). specialize (F m ltac:(apply in_seq; lia)). rewrite El in F.
        apply andb_prop in F. destruct F as [F F5]. do 3 (apply andb_prop in F; destruct F as [F ?]).
        rewrite !negb_true_iff in *. rewrite Z.eqb_neq in *. apply Z.eqb_eq in F5.
        destruct (nsucc k) as [|n0 [|? ?]] eqn:Ns; cbn [length] in F5; try lia.
        destruct (St (S (S (S t)) + m)%nat k n0 ltac:(lia) Qk) as [Qn Ln]; try assumption.
        exists n0. rewrite Nat.add_succ_r. split; [|split; [exact Qn|lia]].
        rewrite levels_S, El. cbn [filter flat_map]. match goal with H : u_mreq (rom k) = false |- _ => rewrite H end. cbn [negb flat_map app]. rewrite Ns. reflexivity. }
    destruct (P d ltac:(lia)) as (k & El & Qk & Lk). assert (k = last) by congruence. subst k.
    destruct (Yw (S (S (S t)) + d)%nat last ltac:(lia) Qk Hk) as [L3 W3]. replace (S (S (S t)) + d)%nat with (t + (3 + d))%nat in * by lia.
    split; [exact L3|]. split; [exact W3|]. intros u Hu.
    destruct (Nat.eq_dec u (S t)) as [->|]; [exact E1|]. destruct (Nat.eq_dec u (S (S t))) as [->|]; [exact E2|].
    replace u with (S (S (S t)) + (u - S (S (S t))))%nat by lia. destruct (P (u - S (S (S t)))%nat ltac:(lia)) as (k & El' & Qk' & _).
    apply (Nw _ k _ Qk'). specialize (F (u - S (S (S t)))%nat ltac:(apply in_seq; lia)). rewrite El' in F. do 2 (apply andb_prop in F; destruct F as [F ?]). apply negb_true_iff. assumption. }
  destruct f; cbn [In] in En2; change (write_delay CSRRW) with (3 + 2)%nat; change (write_delay CSRRS) with (3 + 5)%nat; change (write_delay CSRRC) with (3 + 6)%nat.
  - destruct En2 as [<-|[<-|[<-|[<-|[]]]]]; [apply (Go 2%nat 182)|apply (Go 2%nat 182)|apply (Go 2%nat 54)|apply (Go 2%nat 54)]; try lia; vm_compute; reflexivity.
  - destruct En2 as [<-|[<-|[]]]; apply (Go 5%nat 182); try lia; vm_compute; reflexivity.
  - destruct En2 as [<-|[<-|[]]]; apply (Go 6%nat 182); try lia; vm_compute; reflexivity.
Qed.

Lemma mstatus_reg u : (t < u)%nat -> csr_reg (run s inp u) (inp u) 0 = csr_of (run s inp u) false 0x300.
Proof.
  intros Hu. unfold csr_reg, csr_of, mpie_of, mie_of. change (0 =? CSR_MIP) with false. change (0 =? CSR_MIE) with false. cbv iota.
  rewrite (mpp3 s inp B t t' w X) by lia. unfold b2z, bz. lia.
Qed.
Lemma mstatus_keep u : (u_exc (s_u (run s inp u)) <> X_ENTER_INT /\ u_exc (s_u (run s inp u)) <> X_LEAVE_INT) -> csr_written (run s inp u) 0 = false ->
  csr_of (run s inp (S u)) false 0x300 = csr_of (run s inp u) false 0x300.
Proof. intros M W. rewrite (csr_step s inp B t t' w X 0x300 u); [|right; split; [reflexivity|exact M]]. change (csr_enc 0x300) with 0. rewrite W. reflexivity. Qed.
Lemma not_moving k u : seq_inv k (run s inp u) -> moves_mstatus k = false -> u_exc (s_u (run s inp u)) <> X_ENTER_INT /\ u_exc (s_u (run s inp u)) <> X_LEAVE_INT.
Proof. intros Qk Mk. destruct (si_at _ _ Qk) as (A1 & _). rewrite A1. unfold moves_mstatus in Mk. destruct (u_exc (rom k)); split; discriminate || discriminate Mk. Qed.
Lemma end_wait : o_cyc (run s inp (t' - 1)) = true.
Proof.
  destruct X as (_ & Lt & (w' & Cy & _ & Ak & _) & _). destruct (ok_ack _ _ B t' Cy Ak) as (u' & E & Cy'). subst t'. replace (S u' - 1)%nat with u' by lia. exact Cy'.
Qed.
Lemma mstatus_end u : (t < u)%nat -> S u = t' -> (u_exc (s_u (run s inp u)) <> X_ENTER_INT /\ u_exc (s_u (run s inp u)) <> X_LEAVE_INT) -> csr_written (run s inp u) 0 = false ->
  csr_of (run s inp u) false 0x300 = csr_of (run s inp (S t')) false 0x300.
Proof.
  intros Hu E M W. destruct (let '(conj _ (conj _ (conj H _))) := X in H) as (w' & F'). rewrite (mstatus_keep t'); [rewrite <- E; symmetry; apply mstatus_keep; assumption|..].
  - apply (no_move_commit s inp B t t' w X t' w' F').
  - apply (no_write_commit s inp B t t' w X t' w' 0 F').
Qed.
Lemma wdata_keep c : (forall u, (t < u < t')%nat -> csr_written (run s inp u) c = false) -> v_csr_wdata (vr t') c = v_csr_wdata (vr t) c.
Proof.
  intros N. assert (Lt : (t < t')%nat) by apply X.
  assert (P : forall m, (t + m <= t')%nat -> v_csr_wdata (vr (t + m)) c = v_csr_wdata (vr t) c).
  { induction m as [|m IH]; intros Hm; [rewrite Nat.add_0_r; reflexivity|]. rewrite Nat.add_succ_r, vrun_S. unfold rvfi_step. rewrite nor. cbn [v_csr_wdata].
    destruct m as [|m]; [rewrite Nat.add_0_r; rewrite (no_write_commit s inp B t t' w X t w) by apply X; reflexivity|]. rewrite N by lia. apply IH. lia. }
  specialize (P (t' - t)%nat ltac:(lia)). replace (t + (t' - t))%nat with t' in P by lia. exact P.
Qed.

Lemma mstatus_trap : raised s inp t t' -> v_csr_rdata (vr t') 0 = csr_of (run s inp (S t')) false 0x300 /\ v_csr_wdata (vr t') 0 = v_csr_wdata (vr t) 0.
Proof.
  intros Ra. pose proof (win_long s inp K t t' w X) as L.
  assert (Nw : forall u, (t < u <= t')%nat -> csr_written (run s inp u) 0 = false).
  { intros u Hu. destruct (csr_written _ _) eqn:W; [|reflexivity]. destruct (trap_writes u 0 Ra Hu W); discriminate. }
  assert (Nh : v_hold (vr t') 0 = false).
  { destruct (v_hold _ _) eqn:H; [|reflexivity]. destruct (hold_from 0 t' ltac:(lia) H) as (u0 & H0 & W). rewrite Nw in W by lia. discriminate. }
  split; [|apply wdata_keep; intros u Hu; apply Nw; lia].
  rewrite unheld by (reflexivity || assumption). rewrite mstatus_reg by lia.
  destruct Ra as (r & Hr & E).
  assert (Lr : (r < t' - 1)%nat).
  { destruct X as (_ & _ & (w' & F') & _). assert (r <> t'). { intros ->. rewrite (wait_calm s inp K t' w' F') in E. discriminate. }
    destruct (Nat.eq_dec r (t' - 1)) as [->|]; [|lia]. exfalso. destruct (win_pos s inp K t t' w X (t' - 1)%nat ltac:(lia)) as (k & Q & _). pose proof (pos_exc s inp K k _ Q E) as Q1. replace (S (t' - 1)) with t' in Q1 by lia.
    destruct (commit_place s inp B t t' w X t' w' F') as [A|A]; pose proof (at_unique _ _ _ (si_at _ _ Q1) A); discriminate. }
  destruct (after_raise r Hr E (t' - 1)%nat ltac:(lia)) as (k & Ik & Qk).
  apply mstatus_end; [lia|lia| |apply Nw; lia]. apply (not_moving k _ Qk).
  pose proof trap_facts as F. rewrite forallb_forall in F. specialize (F k Ik). apply andb_prop in F. destruct F as [_ F].
  pose proof end_wait as Cy. rewrite (pos_cyc s inp k _ Qk) in Cy. rewrite Cy in F. cbn [negb orb] in F. apply negb_true_iff in F. exact F.
Qed.

Lemma mstatus_mret : ~ traps s inp t w (run s inp (S t)) -> w = 0x30200073 ->
  v_csr_rdata (vr t') 0 = (if o_cyc (run s inp (t' - 2)) then csr_of (run s inp (S t')) false 0x300 else csr_of (run s inp (S t)) false 0x300) /\
  v_csr_wdata (vr t') 0 = v_csr_wdata (vr t) 0.
Proof.
  intros NT Ew. pose proof (no_exc s inp K t t' w X NT) as Nx. pose proof (win_long s inp K t t' w X) as L.
  assert (D : decode w = Some Mret) by (rewrite Ew; reflexivity).
  destruct (win_start s inp K t t' w X) as (a & M & Bd & Q).
  assert (Nw : forall u, (t < u <= t')%nat -> csr_written (run s inp u) 0 = false).
  { intros u Hu. destruct (csr_written _ _) eqn:W; [|reflexivity]. destruct (plain_writes u 0 NT Hu W) as (f & rd & g & n & D' & _). congruence. }
  assert (Nh : v_hold (vr t') 0 = false).
  { destruct (v_hold _ _) eqn:H; [|reflexivity]. destruct (hold_from 0 t' ltac:(lia) H) as (u0 & H0 & W). rewrite Nw in W by lia. discriminate. }
  split; [|apply wdata_keep; intros u Hu; apply Nw; lia].
  rewrite unheld by (reflexivity || assumption). rewrite mstatus_reg by lia.
  pose proof (at_entry s inp K t t' w X a Mret Bd D eq_refl (Nx (S t) ltac:(lia))) as Q1. change (entry Mret) with 248 in Q1.
  assert (St : forall u k n, (t < u <= t')%nat -> seq_inv k (run s inp u) -> k <> 1 -> k <> 36 -> u_mreq (rom k) = false -> nsucc k = [n] -> seq_inv n (run s inp (S u)) /\ (S u <= t')%nat).
  { intros u k m Hu Qk H1 H36 Hr Hn. assert (Lt : (u < t')%nat).
    { destruct (Nat.eq_dec u t') as [->|]; [|lia]. exfalso. destruct X as (_ & _ & (w' & Cy & _) & _). rewrite (pos_cyc s inp k _ Qk) in Cy. congruence. }
    split; [|lia]. destruct (pos_step s inp K k u Qk) as (m' & I & Qn); try assumption; [apply Nx; lia|apply com_u; lia|]. rewrite Hn in I. destruct I as [<-|[]]. exact Qn. }
  destruct (St (S (S t)) 248 249 ltac:(lia) Q1) as [Q2 L2]; try reflexivity; try lia.
  destruct (St (S (S (S t))) 249 250 ltac:(lia) Q2) as [Q3 L3]; try reflexivity; try lia.
  destruct (St (S (S (S (S t)))) 250 251 ltac:(lia) Q3) as [Q4 L4]; try reflexivity; try lia.
  destruct (St (S (S (S (S (S t))))) 251 252 ltac:(lia) Q4) as [Q5 L5]; try reflexivity; try lia.
  assert (Lt : (S (S (S (S (S (S t))))) < t')%nat).
  { destruct (Nat.eq_dec (S (S (S (S (S (S t)))))) t') as [E|]; [|lia]. exfalso. rewrite E in Q5. destruct X as (_ & _ & (w' & F') & _).
    destruct (commit_place s inp B t t' w X t' w' F') as [A|A]; pose proof (at_unique _ _ _ (si_at _ _ Q5) A); discriminate. }
  assert (Xs : forall m, (m <= 5)%nat -> csr_of (run s inp (S t + m)) false 0x300 = csr_of (run s inp (S t)) false 0x300).
  { assert (St' : forall u k, (t < u <= t')%nat -> seq_inv k (run s inp u) -> moves_mstatus k = false -> csr_of (run s inp (S u)) false 0x300 = csr_of (run s inp u) false 0x300).
    { intros u k Hu Qk Mk. apply mstatus_keep; [apply (not_moving k u Qk Mk)|apply Nw; exact Hu]. }
    pose proof (St' (S t) 1 ltac:(lia) Q eq_refl) as E1. pose proof (St' (S (S t)) 248 ltac:(lia) Q1 eq_refl) as E2. pose proof (St' (S (S (S t))) 249 ltac:(lia) Q2 eq_refl) as E3.
    pose proof (St' (S (S (S (S t)))) 250 ltac:(lia) Q3 eq_refl) as E4. pose proof (St' (S (S (S (S (S t))))) 251 ltac:(lia) Q4 eq_refl) as E5.
    intros m Hm. destruct m as [|[|[|[|[|[|m]]]]]]; [..|lia]; rewrite ?Nat.add_0_r, ?Nat.add_succ_r, ?Nat.add_0_r; congruence. }
  destruct (Nat.eq_dec t' (t + 7)) as [E7|N7].
  - replace (t' - 2)%nat with (S (S (S (S (S t))))) by lia. rewrite (pos_cyc s inp 251 _ Q4). change (u_mreq (rom 251)) with false. cbv iota.
    replace (t' - 1)%nat with (S t + 5)%nat by lia. apply Xs. lia.
  - assert (Z0 : forall u, (t + 7 <= u <= t')%nat -> seq_inv 0 (run s inp u)).
    { intros u Hu. destruct (pos_step s inp K 252 _ Q5) as (n & I & Qn); try lia; [apply Nx; lia|apply com_u; lia|]. assert (n = 0) by (vm_compute in I; intuition congruence). subst n.
      destruct (walk s inp K (fun _ => false) [0] 0 (t + 7) (u - (t + 7)) eq_refl) as (k' & [<-|[]] & Q').
      - replace (t + 7)%nat with (S (S (S (S (S (S (S t))))))) by lia. exact Qn.
      - left; reflexivity.
      - intros u1 Hu1. split; [split; [apply Nx; lia|apply com_u; lia]|reflexivity].
      - replace (t + 7 + (u - (t + 7)))%nat with u in Q' by lia. exact Q'. }
    replace (o_cyc (run s inp (t' - 2))) with true.
    + apply mstatus_end; [lia|lia| |apply Nw; lia]. apply (not_moving 0); [apply Z0; lia|reflexivity].
    + symmetry. destruct (Nat.eq_dec (t' - 2) (t + 6)) as [E|].
      * rewrite E. replace (t + 6)%nat with (S (S (S (S (S (S t)))))) by lia. rewrite (pos_cyc s inp 252 _ Q5). reflexivity.
      * rewrite (pos_cyc s inp 0 _ (Z0 (t' - 2)%nat ltac:(lia))). reflexivity.
Qed.
End P.

(** C55, MIP (code 12): the reported value is the IRQ line in one particular cycle.  For an instruction
    that writes MIP this is the cycle of the write, 5 (CSRRW), 8 (CSRRS) or 9 (CSRRC) cycles after its
    fetch; for every other one it is the last cycle before the next fetch completes. *)
Theorem C55_mip : forall s inp v, bus_ok s inp -> rvfi_fresh v ->
  forall t t' w x y, executed s inp t t' w x y -> let mip := v_csr_rdata (vrun v s inp t') 12 in
  let line u := if irq (inp u) then 0x800 else 0 in
  (forall f rd g, ~ traps s inp t w x -> decode w = Some (Csr f rd g 0x344) -> csr_writes f g = true ->
     mip = line (t + match f with CSRRW => 5 | CSRRS => 8 | CSRRC => 9 end)%nat) /\
  (traps s inp t w x \/ (forall f rd g, decode w = Some (Csr f rd g 0x344) -> csr_writes f g = false) -> mip = line (t' - 1)%nat).
Proof.
  intros s inp v B V t t' w x y (X & -> & ->) mip line. pose proof (bus_ok_ok s inp B) as K. pose proof (win_long s inp K t t' w X) as L.
  assert (Rg : forall u, csr_reg (run s inp u) (inp u) 12 = line u). { intros u. unfold csr_reg, line. change (12 =? CSR_MIP) with true. cbv iota. destruct (irq (inp u)); reflexivity. }
  split.
  - intros f rd g NT D Wr. destruct (writes_at s inp B t t' w X f rd g 0x344 NT D eq_refl Wr) as (L1 & W1 & N1). change (csr_enc 0x344) with 12 in *.
    unfold mip. rewrite (held_at s inp v B t t' w X 12 (t + write_delay f)); try assumption; try reflexivity.
    + rewrite Rg. destruct f; reflexivity.
    + split; [destruct f; cbn [write_delay]; lia|exact L1].
  - intros H. unfold mip. rewrite (unheld s inp v B t t' w X 12); [apply Rg|reflexivity|].
    destruct (v_hold _ _) eqn:Eh; [exfalso|reflexivity]. destruct (hold_from s inp v B t t' w X 12 t' ltac:(lia) Eh) as (u & Hu & W).
    destruct (exc_dec s inp t t' w X) as [Ra|Nr].
    + destruct (trap_writes s inp B t t' w X u 12 Ra ltac:(lia) W); discriminate.
    + assert (NT : ~ traps s inp t w (run s inp (S t))). { intros T. apply (trap_iff s inp K t t' w X) in T. destruct T as (r & Hr & E). rewrite Nr in E by lia. discriminate. }
      destruct (plain_writes s inp B t t' w X u 12 NT ltac:(lia) W) as (f & rd & g & n & D & _ & Wr & I & E).
      assert (n = 0x344). { unfold impl_csrs in I. cbn [In] in I. destruct I as [<-|[<-|[<-|[<-|[<-|[<-|[<-|[]]]]]]]]; (reflexivity || discriminate E). }
      subst n. destruct H as [T|N]; [contradiction|]. rewrite (N f rd g D) in Wr. discriminate.
Qed.

(** C55, MSTATUS (code 0) in a trap: the value reported as read is the one after trap entry, and the
    one reported as written is what it was in the previous report. *)
Theorem C55_mstatus_trap : forall s inp v, bus_ok s inp -> rvfi_fresh v ->
  forall t t' w x y, executed s inp t t' w x y -> traps s inp t w x ->
  v_csr_rdata (vrun v s inp t') 0 = csr_of y false 0x300 /\ v_csr_wdata (vrun v s inp t') 0 = v_csr_wdata (vrun v s inp t) 0.
Proof.
  intros s inp v B V t t' w x y (X & -> & ->) T. apply (mstatus_trap s inp v B t t' w X). apply (trap_iff s inp (bus_ok_ok s inp B) t t' w X). exact T.
Qed.
(** C55, MSTATUS for MRET: the value reported as read is the one before only if the next fetch is
    acknowledged in the second cycle of its request, otherwise the one after; the one reported as
    written is what it was in the previous report. *)
Theorem C55_mstatus_mret : forall s inp v, bus_ok s inp -> rvfi_fresh v ->
  forall t t' w x y, executed s inp t t' w x y -> ~ traps s inp t w x -> w = 0x30200073 ->
  v_csr_rdata (vrun v s inp t') 0 = (if o_cyc (run s inp (t' - 2)) then csr_of y false 0x300 else csr_of x false 0x300) /\
  v_csr_wdata (vrun v s inp t') 0 = v_csr_wdata (vrun v s inp t) 0.
Proof. intros s inp v B V t t' w x y (X & -> & ->) NT Ew. apply (mstatus_mret s inp v B t t' w X); assumption. Qed.

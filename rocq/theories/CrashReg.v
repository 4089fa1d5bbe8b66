(** * C81: what a reset in the middle of everything leaves in the registers

    The microcode of the shifts stores intermediate results in the destination register ("microcode cannot be
    interrupted, so user will never see this intermediate result", microcode.asm:304-306).  But the core can be
    reset, and the register RAM survives a reset. *)
From Coq Require Import ZArith Lia Bool List.
From Verif Require Import Bits Ucode Cpu Isa Timed BitLemmas Wf Sym Blocks CsrBlocks DecodeOk Boundary Sim Main Obs PropsBus PropsInv Observe PropsIsa Latency PropsFrame InputsMatter Memory SocMem Crash RegRam LatencySoc.
Import ListNotations.
Open Scope Z_scope.

(** ** Specification *)
(** A shift: its operation, destination, source and amount (microcode.asm:292-337 does one position per loop iteration). *)
Definition shift_insn (a : arch) (i : instr) : option (alu_fn * Z * Z * Z) :=
  match i with
  | OpImm f rd rs1 n => if is_shift f then Some (f, rd, rs1, n) else None
  | OpReg f rd rs1 rs2 => if is_shift f then Some (f, rd, rs1, rd_x a rs2 mod 32) else None
  | _ => None
  end.
(** What a reset leaves behind: registers, memory, [mtvec] and [mscratch]. *)
Record remains := { l_x : Z -> Z; l_mem : Z -> Z; l_mtvec : Z; l_mscratch : Z }.
(** Registers [x] and memory [m] are what the machine [am] has after [n] instructions; or the next instruction is a shift, not preempted
    by an interrupt, and its destination has been shifted by part of the amount. *)
Inductive stopped (phys : Z -> Z) (o : nat -> nat -> bool) (am : arch * (Z -> Z)) (n : nat) (x m : Z -> Z) : Prop :=
| whole a m1 : instructions phys o n am = (a, m1) -> (forall r, 1 <= r < 32 -> x r = rd_x a r) -> (forall z, m z = m1 z) -> stopped phys o am n x m
| part a m1 i f rd rs1 amount j : instructions phys o n am = (a, m1) -> int_enabled a && o n 1%nat = false ->
    decode (peek phys m1 (pc a) 4) = Some i -> shift_insn a i = Some (f, rd, rs1, amount) -> 1 <= j < amount ->
    (forall r, 1 <= r < 32 -> x r = if r =? rd then alu f (rd_x a rs1) j else rd_x a r) -> (forall z, m z = m1 z) -> stopped phys o am n x m.
(** The machine [am], stopped after [n] instructions, its two CSRs after [q]. *)
Definition left_behind (phys : Z -> Z) (o : nat -> nat -> bool) (am : arch * (Z -> Z)) (n q : nat) (l : remains) : Prop :=
  stopped phys o am n (l_x l) (l_mem l) /\ l_mtvec l = mtvec (fst (instructions phys o q am)) /\ l_mscratch l = mscratch (fst (instructions phys o q am)).
Definition adjacent_to (n q : nat) : Prop := n = q \/ n = S q \/ q = S n.
(** [r] resets after the machine started from [a] and [m]: each life starts at address 0 with interrupts disabled and with what the life before left. *)
Inductive history (phys : Z -> Z) (a : arch) (m : Z -> Z) : nat -> remains -> Prop :=
| one_life o n q l : adjacent_to n q -> left_behind phys o (a, m) n q l -> history phys a m O l
| another r l a' o n q l' : history phys a m r l -> booted a' ->
    (forall x, 1 <= x < 32 -> rd_x a' x = l_x l x) -> mtvec a' = l_mtvec l -> mscratch a' = l_mscratch l ->
    adjacent_to n q -> left_behind phys o (a', l_mem l) n q l' -> history phys a m (S r) l'.
(** What a state of core and memory holds: register RAM words 1 to 31 (datapath.py:392-427), 37 and 40 (mtvec and mscratch, datapath.py:671-691), memory bytes (attosoc.py:84-107). *)
Definition holds (s : state) (m : wbmem) : remains :=
  {| l_x := s_mem s; l_mem := fun z => byte (wm_mem m (z / 4)) (z mod 4); l_mtvec := s_mem s 37; l_mscratch := s_mem s 40 |}.

(** ** Proofs: at most one write between two fetches *)
Definition gpw (u : uinsn) : bool := match u_csr u, u_wsel u with CO_NONE, RW_INSN_RD => u_rwrite u | _, _ => false end.
Definition csw (u : uinsn) : bool := match u_csr u, u_csel u with CO_WRITE_CSR, CS_INSN_CSR => true | _, _ => false end.
Definition gp (r : Z) : Prop := 1 <= r < 32.
Definition kept (r : Z) : Prop := r = 37 \/ r = 40.

Lemma gp_same k s i : J k s -> gpw (s_u s) = false -> forall r, gp r -> s_mem (step s i) r = s_mem s r.
Proof.
  intros Hj Hg r Hr. unfold gp in Hr. assert (E : s_mem (step s i) r = rf_mem_next (rf_wen (s_u s) (reg_w_adr (s_u s) (s_dst s)) (allow_zero_wr (s_u s)))
    (rf_waddr (s_u s) (reg_w_adr (s_u s) (s_dst s)) (csr_adr (s_u s) (mp_enc (s_map s))))
    (rf_wdata (s_u s) (s_alu s) (csr_dat_w (csr_adr (s_u s) (mp_enc (s_map s))) (s_alu s))) (s_mem s) r) by (unfold step; destruct (rst i); reflexivity).
  rewrite E. unfold rf_mem_next. destruct (rf_wen _ _ _) eqn:We; [|reflexivity]. unfold upd.
  destruct (Z.eqb_spec r (rf_waddr (s_u s) (reg_w_adr (s_u s) (s_dst s)) (csr_adr (s_u s) (mp_enc (s_map s))))) as [Q|]; [exfalso|reflexivity].
  revert Q We Hg. unfold rf_waddr, reg_w_adr, rf_wen, gpw, csr_adr. pose proof (bits_range (u_target (s_u s)) 0 4 ltac:(lia)). pose proof (j_enc _ _ Hj).
  destruct (u_csr (s_u s)), (u_wsel (s_u s)), (u_csel (s_u s)); intros; try lia; try discriminate; rewrite Hg in We; discriminate.
Qed.
Lemma trg_table : check (fun k _ _ _ => match u_csr (rom k), u_csel (rom k) with CO_WRITE_CSR, CS_TRG_CSR => negb (bits (u_target (rom k)) 0 4 =? 5) && negb (bits (u_target (rom k)) 0 4 =? 8) | _, _ => true end) = true.
Proof. vm_compute. reflexivity. Qed.
Lemma csr_same k s i : 0 <= k < 256 -> s_u s = rom k -> 0 <= s_dst s < 32 -> csw (s_u s) = false -> forall r, kept r -> s_mem (step s i) r = s_mem s r.
Proof.
  intros Hk Hu Hd Hc r Hr. assert (E : s_mem (step s i) r = rf_mem_next (rf_wen (s_u s) (reg_w_adr (s_u s) (s_dst s)) (allow_zero_wr (s_u s)))
    (rf_waddr (s_u s) (reg_w_adr (s_u s) (s_dst s)) (csr_adr (s_u s) (mp_enc (s_map s))))
    (rf_wdata (s_u s) (s_alu s) (csr_dat_w (csr_adr (s_u s) (mp_enc (s_map s))) (s_alu s))) (s_mem s) r) by (unfold step; destruct (rst i); reflexivity).
  rewrite E. unfold rf_mem_next. destruct (rf_wen _ _ _) eqn:We; [|reflexivity]. unfold upd.
  destruct (Z.eqb_spec r (rf_waddr (s_u s) (reg_w_adr (s_u s) (s_dst s)) (csr_adr (s_u s) (mp_enc (s_map s))))) as [Q|]; [exfalso|reflexivity].
  pose proof (check_all _ k true true true trg_table Hk) as T. cbv beta in T. rewrite <- Hu in T.
  revert Q We Hc T. unfold rf_waddr, reg_w_adr, rf_wen, csw, csr_adr, kept in *. change (2 ^ 5) with 32.
  destruct (u_csr (s_u s)), (u_wsel (s_u s)), (u_csel (s_u s)); intros; try lia; try discriminate.
  all: apply andb_prop in T; destruct T as [T1 T2]; apply negb_true_iff, Z.eqb_neq in T1, T2; lia.
Qed.

(** The address of the microinstruction in each cycle. *)
Definition adr (s : state) (inp : nat -> input) (t : nat) : Z := match t with O => -1 | S n => seq_now (run s inp n) (inp n) end.
Lemma J_all s inp t : fresh s -> J (adr s inp t) (run s inp t).
Proof. intros F. induction t as [|t IH]; [apply J_fresh; exact F|]. cbn [adr run]. apply (J_step (adr s inp t)). exact IH. Qed.

Section Once.
Variables (s : state) (inp : nat -> input).
Hypotheses (F : fresh s) (Hr : forall t, rst (inp t) = false).
Local Notation st := (run s inp).
Local Notation ad := (adr s inp).

Lemma alive t : (1 <= t)%nat -> 0 <= ad t < 256 /\ s_u (st t) = rom (ad t) /\ s_sguard (st t) = false.
Proof.
  intros Ht. destruct t as [|t]; [lia|]. pose proof (J_all s inp t F) as Jt. pose proof (seq_range _ _ (inp t) Jt) as Rg. cbn [adr]. split; [exact Rg|].
  cbn [run]. split; [apply step_u|]. unfold step. rewrite Hr. reflexivity.
Qed.
Lemma no_decode t : (1 <= t)%nat -> (forall w, ~ fetch_done s inp t w) -> u_fetch (rom (ad t)) && ack (inp t) = false.
Proof.
  intros Ht Nf. destruct (alive t Ht) as (_ & Hu & G). pose proof (J_all s inp t F) as Jt. destruct (u_fetch (rom (ad t))) eqn:Fe; [|reflexivity]. destruct (ack (inp t)) eqn:Ak; [exfalso|reflexivity].
  rewrite <- Hu in Fe. pose proof (j_fetch _ _ Jt Fe G) as Mr. destruct (j_at _ _ Jt) as [(G' & _)|(_ & _ & _ & Mg & _)]; [congruence|].
  apply (Nf (dat_r (inp t))). unfold fetch_done, o_cyc. rewrite Mr, Mg, Fe, Ak. auto.
Qed.
Lemma moves t : (1 <= t)%nat -> exists e z, e = exc_now (st t) (inp t) /\ match next_of (ad t) (test_of (rom (ad t)) e z (ack (inp t))) with Some j => ad (S t) = j | None => ad (S t) = mp_req (s_map (st t)) end.
Proof. intros Ht. destruct (alive t Ht) as (_ & _ & G). destruct (next_now _ _ (inp t) (J_all s inp t F) G) as (_ & _ & H). eexists _, _. split; [reflexivity|exact H]. Qed.

Section Words.
Variables (words : Z -> Prop) (wr : uinsn -> bool) (safe post : Z -> bool) (any : bool).
Hypotheses (Hany : any = true -> forall j, safe j = true)
  (Hsame : forall t r, (1 <= t)%nat -> wr (s_u (st t)) = false -> words r -> s_mem (st (S t)) r = s_mem (st t) r)
  (T1 : check (fun k e z a => negb (safe k) || u_fetch (rom k) && a || match next_of k (test_of (rom k) e z a) with Some j => if wr (rom k) then post j else safe j | None => negb (wr (rom k)) && any end) = true)
  (T2 : check (fun k e z a => negb (post k) || negb (wr (rom k)) && (u_fetch (rom k) && a || match next_of k (test_of (rom k) e z a) with Some j => post j | None => false end)) = true).

Lemma after_post t1 n : forall v, (1 <= v)%nat -> (v + n = S t1)%nat -> post (ad v) = true \/ n = O -> (forall x w, (v <= x < t1)%nat -> ~ fetch_done s inp x w) ->
  forall r, words r -> s_mem (st v) r = s_mem (st (S t1)) r.
Proof.
  induction n as [|n IH]; intros v Hv En P Nf r W; [rewrite Nat.add_0_r in En; subst v; reflexivity|]. destruct P as [P|]; [|discriminate].
  destruct (alive v Hv) as (Hk & Hu & G). destruct (moves v Hv) as (e & z & _ & Mv).
  pose proof (check_all _ (ad v) e z (ack (inp v)) T2 Hk) as T. cbv beta in T. rewrite P in T. cbn [negb orb] in T. apply andb_prop in T. destruct T as [Tw T]. apply negb_true_iff in Tw.
  rewrite <- (Hsame v r Hv) by (try rewrite Hu; assumption). apply IH; try lia; try exact W.
  - destruct n; [right; reflexivity|left]. rewrite no_decode in T by (try exact Hv; intros w; apply Nf; lia). cbn [orb] in T. destruct (next_of _ _); [rewrite Mv; exact T|discriminate].
  - intros x w Hx. apply Nf. lia.
Qed.
Lemma once u t1 : (1 <= u <= t1)%nat -> safe (ad u) = true -> (forall x w, (u <= x < t1)%nat -> ~ fetch_done s inp x w) ->
  forall v, (u <= v <= S t1)%nat -> (forall r, words r -> s_mem (st v) r = s_mem (st u) r) \/ (forall r, words r -> s_mem (st v) r = s_mem (st (S t1)) r).
Proof.
  intros Hu Sf Nf.
  assert (M : forall n, (u + n <= t1)%nat -> ((forall r, words r -> s_mem (st (u + n)) r = s_mem (st u) r) /\ safe (ad (u + n)) = true) \/ (forall r, words r -> s_mem (st (u + n)) r = s_mem (st (S t1)) r) /\ post (ad (u + n)) = true).
  { induction n as [|n IH]; intros Hn; [rewrite Nat.add_0_r; left; split; [reflexivity|exact Sf]|]. specialize (IH ltac:(lia)). rewrite Nat.add_succ_r.
    assert (H1 : (1 <= u + n)%nat) by lia. destruct (alive _ H1) as (Hk & Hu' & G). destruct (moves _ H1) as (e & z & _ & Mv).
    assert (Nd : u_fetch (rom (ad (u + n))) && ack (inp (u + n)%nat) = false) by (apply no_decode; [exact H1|intros w; apply Nf; lia]).
    destruct IH as [[E Sk]|[E Pk]].
    - pose proof (check_all _ _ e z (ack (inp (u + n)%nat)) T1 Hk) as T. cbv beta in T. rewrite Sk, Nd in T. cbn [negb orb] in T.
      destruct (wr (rom (ad (u + n)))) eqn:Wr.
      + right. assert (Pn : post (ad (S (u + n))) = true) by (destruct (next_of _ _); [rewrite Mv; exact T|discriminate]).
        split; [|exact Pn]. apply (after_post t1 (t1 - (u + n))); [lia|lia|left; exact Pn|intros x w Hx; apply Nf; lia].
      + left. split.
        * intros r W. rewrite Hsame by (try rewrite Hu'; assumption). apply E; exact W.
        * destruct (next_of _ _); [rewrite Mv; exact T|]. apply Hany. cbn [negb andb] in T. exact T.
    - right. pose proof (check_all _ _ e z (ack (inp (u + n)%nat)) T2 Hk) as T. cbv beta in T. rewrite Pk, Nd in T. cbn [negb orb] in T. apply andb_prop in T. destruct T as [Tw T]. apply negb_true_iff in Tw.
      split; [|destruct (next_of _ _); [rewrite Mv; exact T|discriminate]]. intros r W. rewrite Hsame by (try rewrite Hu'; assumption). apply E; exact W. }
  intros v Hv. destruct (Nat.eq_dec v (S t1)) as [->|Ne]; [right; reflexivity|]. replace v with (u + (v - u))%nat by lia. destruct (M (v - u)%nat ltac:(lia)) as [[E _]|[E _]]; [left|right]; exact E.
Qed.
End Words.

Definition shifting : list Z := [65; 69; 77; 89; 90; 91; 92; 93; 94; 95; 96; 97; 98; 99; 100; 101; 102; 103; 193; 197; 205; 216; 217; 218; 219; 220; 221; 222; 223; 224; 225; 226; 1; 34; 35; 36].
Definition gp_safe (k : Z) : bool := negb (memz k shifting).
Definition gp_post (k : Z) : bool := memz k [58; 62; 63; 182; 0].
Lemma gp_T1 : check (fun k e z a => negb (gp_safe k) || u_fetch (rom k) && a || match next_of k (test_of (rom k) e z a) with Some j => if gpw (rom k) then gp_post j else gp_safe j | None => negb (gpw (rom k)) && false end) = true.
Proof. vm_compute. reflexivity. Qed.
Lemma gp_T2 : check (fun k e z a => negb (gp_post k) || negb (gpw (rom k)) && (u_fetch (rom k) && a || match next_of k (test_of (rom k) e z a) with Some j => gp_post j | None => false end)) = true.
Proof. vm_compute. reflexivity. Qed.
Definition csr_post (k : Z) : bool := memz k [181; 0].
Lemma csr_T1 : check (fun k e z a => negb true || u_fetch (rom k) && a || match next_of k (test_of (rom k) e z a) with Some j => if csw (rom k) then csr_post j else true | None => negb (csw (rom k)) && true end) = true.
Proof. vm_compute. reflexivity. Qed.
Lemma csr_T2 : check (fun k e z a => negb (csr_post k) || negb (csw (rom k)) && (u_fetch (rom k) && a || match next_of k (test_of (rom k) e z a) with Some j => csr_post j | None => false end)) = true.
Proof. vm_compute. reflexivity. Qed.
End Once.

(** ** Proofs: the shifts, cycle by cycle *)
Inductive keeps (inp : nat -> input) (Q P : state -> Prop) : nat -> nat -> state -> Prop :=
| keeps_now t s : Q s -> P s -> keeps inp Q P 0 t s
| keeps_later n t s : Q s -> u_fetch (s_u s) = false -> keeps inp Q P n (S t) (nst s (ack (inp t)) (dat_r (inp t)) (irq (inp t))) -> keeps inp Q P (S n) t s.
Ltac kstp_inputs :=
  match goal with |- keeps ?inp _ _ _ _ (nst _ (ack (?inp ?t)) (dat_r (?inp ?t)) (irq (?inp ?t))) =>
    let k := fresh "k" in let d := fresh "d" in let q := fresh "q" in
    generalize (ack (inp t)) as k; generalize (dat_r (inp t)) as d; generalize (irq (inp t)) as q; intros q d k
  end.
Ltac kstp := apply keeps_later; [|reflexivity|kstp_inputs; unf; norm].
Lemma keeps_run inp Q P s0 n : forall t s, keeps inp Q P n t s -> s = run s0 inp t -> (forall u, rst (inp u) = false) ->
  (forall u, (t <= u <= t + n)%nat -> Q (run s0 inp u)) /\ P (run s0 inp (t + n)) /\ (forall u, (t <= u < t + n)%nat -> u_fetch (s_u (run s0 inp u)) = false).
Proof.
  induction n as [|n IH]; intros t s H E Hr.
  - inversion H; subst. rewrite Nat.add_0_r. split; [intros u Hu; replace u with t by lia; assumption|]. split; [assumption|]. intros; lia.
  - inversion H as [|n' t' s' I Fe H']; subst. destruct (IH (S t) _ H') as (A & B & C); [cbn [run]; rewrite step_nst by apply Hr; reflexivity|exact Hr|]. split; [|split].
    + intros u Hu. destruct (Nat.eq_dec u t) as [->|]; [assumption|]. apply A. lia.
    + replace (t + S n)%nat with (S t + n)%nat by lia. exact B.
    + intros u Hu. destruct (Nat.eq_dec u t) as [->|]; [assumption|]. apply C. lia.
Qed.
(** [rd] has been shifted [j] times (not at all written if [j = 0]). *)
Definition shifted (f : alu_fn) (rd x : Z) (m0 : Z -> Z) (j : Z) (s : state) : Prop := forall r, gp r -> s_mem s r = if (r =? rd) && (1 <=? j) then alu f x j else m0 r.
Definition upto (f : alu_fn) (rd x : Z) (m0 : Z -> Z) (n : Z) (s : state) : Prop := exists j, 0 <= j <= n /\ shifted f rd x m0 j s.
Section Shifts.
Variable inp : nat -> input.

Lemma shift_loop_keeps f c : is_shift f = true -> forall s t m0 x j n,
  at_ (loop_at f) s -> settled s -> 0 <= s_dst s < 32 -> word x ->
  shifted f (s_dst s) x m0 (j - 1) s -> s_a s = Z.of_nat (S c) -> s_b s = 1 -> s_alu s = alu f x j -> 1 <= j -> j + Z.of_nat c < 32 -> n = j + Z.of_nat c ->
  keeps inp (upto f (s_dst s) x m0 n) (fun s' => at_ 0 s' /\ shifted f (s_dst s) x m0 n s') (2 * S c) t s.
Proof.
  intros Hf. induction c as [|c IH]; intros s t m0 x j n (A1&A2&A3&A4) (B1&B2) Hd Hx M Ha Hb Hal Hj Hc En.
  - explode s. proj. subst nx u mg sg m3 e2 ra rb al. change (Z.of_nat 0) with 0 in *. rewrite Z.add_0_r in En. subst n.
    assert (Up : forall r, gp r -> upd m ds (alu f x j) r = if (r =? ds) && (1 <=? j) then alu f x j else m0 r).
    { intros r Hr. unfold upd. destruct (Z.eqb_spec r ds) as [->|Ne]; cbn [andb]; [rewrite (proj2 (Z.leb_le 1 j)) by lia; reflexivity|]. specialize (M r Hr). rewrite (proj2 (Z.eqb_neq r ds)) in M by exact Ne. exact M. }
    assert (U0 : ds = 0 -> forall r, gp r -> m r = if (r =? ds) && (1 <=? j) then alu f x j else m0 r).
    { intros -> r Hr. specialize (M r Hr). unfold gp in Hr. destruct (Z.eqb_spec r 0); [lia|]. exact M. }
    destruct f; try discriminate; unfold loop_at; match goal with |- context[rom ?k] => vmchange (rom k) end;
    change (2 * 1)%nat with 2%nat; (kstp; [exists (j - 1); split; [lia|exact M]|]);
    (kstp; [exists j; split; [lia|]; unfold shifted; proj; destruct (Z.eqb_spec ds 0); auto|]);
    change (w32 (sub_unit (Z.of_nat 1) 1) =? 0) with true; unf; norm;
    (apply keeps_now; [exists j; split; [lia|]|split; [repeat split|]]); (unfold shifted; proj; destruct (Z.eqb_spec ds 0); auto).
  - replace (2 * S (S c))%nat with (S (S (2 * S c))) by lia.
    explode s. proj. subst nx u mg sg m3 e2 ra rb al.
    assert (Ez : w32 (sub_unit (Z.of_nat (S (S c))) 1) = Z.of_nat (S c)).
    { rewrite sub_ok. rewrite Z.mod_small by lia. lia. }
    assert (Enz : (Z.of_nat (S c) =? 0) = false) by (apply Z.eqb_neq; lia).
    assert (Es : sh1 f (alu f x j) = alu f x (j + 1)) by (apply sh1_step; auto; lia).
    assert (Up : forall r, gp r -> upd m ds (alu f x j) r = if (r =? ds) && (1 <=? j) then alu f x j else m0 r).
    { intros r Hr. unfold upd. destruct (Z.eqb_spec r ds) as [->|Ne]; cbn [andb]; [rewrite (proj2 (Z.leb_le 1 j)) by lia; reflexivity|]. specialize (M r Hr). rewrite (proj2 (Z.eqb_neq r ds)) in M by exact Ne. exact M. }
    assert (U0 : ds = 0 -> forall r, gp r -> m r = if (r =? ds) && (1 <=? j) then alu f x j else m0 r).
    { intros -> r Hr. specialize (M r Hr). unfold gp in Hr. destruct (Z.eqb_spec r 0); [lia|]. exact M. }
    destruct f; try discriminate; unfold loop_at, sh1 in *; match goal with |- context[rom ?k] => vmchange (rom k) end;
    (kstp; [exists (j - 1); split; [lia|exact M]|]); rewrite ?Ez;
    (kstp; [exists j; split; [lia|]; unfold shifted; proj; destruct (Z.eqb_spec ds 0); auto|]); rewrite ?Ez, ?Enz; unf; norm; rewrite ?Es;
    match goal with |- keeps _ _ _ _ ?t' ?s' => apply (IH s' t' m0 x (j + 1) n) end;
      proj; try reflexivity; try lia; try assumption; try (repeat split; reflexivity);
    (replace (j + 1 - 1) with j by lia; unfold shifted; proj; destruct (Z.eqb_spec ds 0); auto).
Qed.

Ltac opening s :=
  intros [(A1&A2&A3&A4) (B1&B2) C1 C2] R W;
  pose proof (wf_src_a s W) as Wsa; pose proof (wf_src_b s W) as Wsb; pose proof (wf_dst s W) as Wds;
  pose proof (wf_pc s W) as Wpc; pose proof (wf_mem s W) as Wm; pose proof (wf_imm s W) as Wim;
  unfold inw in *;
  explode s; unfold rel in R; proj;
  lazymatch goal with H : _ = rom ?k |- _ => repeat match goal with E : ?x = _ |- _ => is_var x; subst x end; vmchange (rom k) end;
  cbn [s_dst s_src_a s_src_b];
  repeat match goal with R : relv ?a _ _ _ _ _ _ _ |- context[rd_x ?a ?r] => rewrite (r_x _ _ _ _ _ _ _ _ R r) by lia end.
Ltac start_ := exists 0; split; [lia|unfold shifted; intros r Hr; proj; change (1 <=? 0) with false; rewrite andb_false_r; reflexivity].
Ltac zero_end := apply keeps_now; [start_|split; [unfold at_; proj; repeat split|intros r Hr; reflexivity]].
Lemma shifti_keeps f s t a n : is_shift f = true -> 0 <= n < 32 ->
  dispatched (shifti_entry f) s -> rel a s -> wf s -> (match f with SRA => s_imm s mod 32 | _ => s_imm s end) = n ->
  exists N, keeps inp (upto f (s_dst s) (rd_x a (s_src_a s)) (s_mem s) n)
    (fun s' => if n =? 0 then at_ 104 s' /\ (forall r, gp r -> s_mem s' r = s_mem s r) else at_ 0 s' /\ shifted f (s_dst s) (rd_x a (s_src_a s)) (s_mem s) n s') N t s.
Proof.
  intros Hf Hn.
  assert (En : n = 0 \/ exists c, n = Z.of_nat (S c)) by (destruct n; [left; lia|right; exists (pred (Pos.to_nat p)); lia|lia]).
  destruct En as [->|[c ->]].
  - change (0 =? 0) with true. destruct f; try discriminate; unfold shifti_entry; opening s; intros I; eexists.
    + subst im. kstp; [start_|]. kstp; [start_|]. kstp; [start_|]. kstp; [start_|]. zero_end.
    + subst im. kstp; [start_|]. kstp; [start_|]. kstp; [start_|]. kstp; [start_|]. zero_end.
    + kstp; [start_|]. kstp; [start_|]. kstp; [start_|]. rewrite land31, I. kstp; [start_|]. zero_end.
  - assert (Ez : (Z.of_nat (S c) =? 0) = false) by (apply Z.eqb_neq; lia). rewrite Ez.
    assert (Hc : w32 (0 + Z.of_nat (S c)) = Z.of_nat (S c)) by (unfold w32; rewrite Z.add_0_l; apply Z.mod_small; lia).
    destruct f; try discriminate; unfold shifti_entry; opening s; intros I; exists (S (S (S (S (2 * S c))))).
    + subst im. kstp; [start_|]. kstp; [start_|]. kstp; [start_|]. rewrite !Hc. kstp; [start_|]. rewrite ?Ez, ?Hc. unf; norm.
      match goal with |- keeps _ _ _ _ ?t' ?s' => apply (shift_loop_keeps SLL c eq_refl s' t' m (m sa) 1) end;
        proj; auto; try lia; try (repeat split; reflexivity); first [apply (sh1_first SLL); solve [auto] | unfold shifted; intros r Hr; proj; change (1 <=? 1 - 1) with false; rewrite andb_false_r; reflexivity].
    + subst im. kstp; [start_|]. kstp; [start_|]. kstp; [start_|]. rewrite !Hc. kstp; [start_|]. rewrite ?Ez, ?Hc. unf; norm.
      match goal with |- keeps _ _ _ _ ?t' ?s' => apply (shift_loop_keeps SRL c eq_refl s' t' m (m sa) 1) end;
        proj; auto; try lia; try (repeat split; reflexivity); first [apply (sh1_first SRL); solve [auto] | unfold shifted; intros r Hr; proj; change (1 <=? 1 - 1) with false; rewrite andb_false_r; reflexivity].
    + kstp; [start_|]. kstp; [start_|]. kstp; [start_|]. rewrite !land31, !I. kstp; [start_|]. rewrite ?land31, ?I, ?Ez. unf; norm.
      match goal with |- keeps _ _ _ _ ?t' ?s' => apply (shift_loop_keeps SRA c eq_refl s' t' m (m sa) 1) end;
        proj; auto; try lia; try (repeat split; reflexivity); first [apply (sh1_first SRA); solve [auto] | unfold shifted; intros r Hr; proj; change (1 <=? 1 - 1) with false; rewrite andb_false_r; reflexivity].
Qed.
Lemma shift_keeps f s t a : is_shift f = true ->
  dispatched (shift_entry f) s -> rel a s -> wf s -> let n := rd_x a (s_src_b s) mod 32 in
  exists N, keeps inp (upto f (s_dst s) (rd_x a (s_src_a s)) (s_mem s) n)
    (fun s' => if n =? 0 then at_ 104 s' /\ (forall r, gp r -> s_mem s' r = s_mem s r) else at_ 0 s' /\ shifted f (s_dst s) (rd_x a (s_src_a s)) (s_mem s) n s') N t s.
Proof.
  intros Hf D R0 W n. unfold n. clear n.
  pose proof (Z.mod_pos_bound (rd_x a (s_src_b s)) 32 ltac:(lia)) as Hn.
  remember (rd_x a (s_src_b s) mod 32) as n eqn:I.
  assert (En : n = 0 \/ exists c, n = Z.of_nat (S c)) by (destruct n; [left; lia|right; exists (pred (Pos.to_nat p)); lia|lia]).
  rewrite (r_x _ _ _ _ _ _ _ _ R0 (s_src_b s)) in I by (apply (wf_src_b s W)). symmetry in I.
  revert I. revert D R0 W.
  destruct En as [->|[c ->]].
  - change (0 =? 0) with true. destruct f; try discriminate; unfold shift_entry; opening s; intros I; eexists;
    (kstp; [start_|]; kstp; [start_|]; kstp; [start_|]; rewrite land31, I; kstp; [start_|]; kstp; [start_|]; zero_end).
  - assert (Ez : (Z.of_nat (S c) =? 0) = false) by (apply Z.eqb_neq; lia). rewrite Ez.
    destruct f; try discriminate; unfold shift_entry; opening s; intros I; exists (S (S (S (S (2 * S c)))));
    (kstp; [start_|]; kstp; [start_|]; kstp; [start_|]; rewrite !land31, !I; kstp; [start_|]; rewrite ?land31, ?I, ?Ez; unf; norm).
    + match goal with |- keeps _ _ _ _ ?t' ?s' => apply (shift_loop_keeps SLL c eq_refl s' t' m (m sa) 1) end;
        proj; auto; try lia; try (repeat split; reflexivity); first [apply (sh1_first SLL); solve [auto] | unfold shifted; intros r Hr; proj; change (1 <=? 1 - 1) with false; rewrite andb_false_r; reflexivity].
    + match goal with |- keeps _ _ _ _ ?t' ?s' => apply (shift_loop_keeps SRL c eq_refl s' t' m (m sa) 1) end;
        proj; auto; try lia; try (repeat split; reflexivity); first [apply (sh1_first SRL); solve [auto] | unfold shifted; intros r Hr; proj; change (1 <=? 1 - 1) with false; rewrite andb_false_r; reflexivity].
    + match goal with |- keeps _ _ _ _ ?t' ?s' => apply (shift_loop_keeps SRA c eq_refl s' t' m (m sa) 1) end;
        proj; auto; try lia; try (repeat split; reflexivity); first [apply (sh1_first SRA); solve [auto] | unfold shifted; intros r Hr; proj; change (1 <=? 1 - 1) with false; rewrite andb_false_r; reflexivity].
Qed.
End Shifts.

(** ** Proofs: one instruction *)
Section Insn.
Variables (s : state) (inp : nat -> input).
Hypothesis K : ok s inp.
Local Notation st := (run s inp).
Local Notation ad := (adr s inp).
Let F : fresh s := ok'_fresh _ _ K.
Let Hr : forall t, rst (inp t) = false.
Proof. intros t. apply K. Qed.

Lemma gp_words t r : (1 <= t)%nat -> gpw (s_u (st t)) = false -> gp r -> s_mem (st (S t)) r = s_mem (st t) r.
Proof. intros _ Hg G. cbn [run]. apply (gp_same (ad t)); [apply J_all; exact F|exact Hg|exact G]. Qed.
Lemma st_wf t : wf (st t).
Proof. apply run_wf; [destruct F as (? & ? & ? & ? & ?); assumption|apply K]. Qed.
Lemma csr_words t r : (1 <= t)%nat -> csw (s_u (st t)) = false -> kept r -> s_mem (st (S t)) r = s_mem (st t) r.
Proof. intros Ht Hc G. destruct (alive s inp F Hr t Ht) as (Hk & Hu & _). cbn [run]. apply (csr_same (ad t)); try assumption. apply (wf_dst _ (st_wf t)). Qed.
Lemma ad_at t k : (1 <= t)%nat -> 0 <= k < 255 -> at_ k (st t) -> ad t = k.
Proof.
  intros Ht Hk (_ & Nx & _). destruct (alive s inp F Hr t Ht) as (Hk' & _ & G). destruct (j_at _ _ (J_all s inp t F)) as [(G' & _)|(_ & _ & _ & _ & N)]; [congruence|].
  rewrite Nx in N. destruct (Z.eq_dec (ad t) 255) as [E|E]; [rewrite E in N; change ((255 + 1) mod 256) with 0 in N; lia|]. rewrite Z.mod_small in N; lia.
Qed.
Lemma rom1 e z a : next_of 1 (test_of (rom 1) e z a) = if e then Some 240 else None.
Proof. destruct e, z, a; vm_compute; reflexivity. Qed.
Lemma rom36 e z a : next_of 36 (test_of (rom 36) e z a) = if e then Some 240 else None.
Proof. destruct e, z, a; vm_compute; reflexivity. Qed.
Lemma not_fetching t w : fetch_done s inp t w -> u_fetch (s_u (st t)) = true.
Proof. intros (_ & U & _). exact U. Qed.

Definition same (v u : nat) : Prop := forall r, gp r -> s_mem (st v) r = s_mem (st u) r.
Lemma csr_once t0 t1 w : executes s inp t0 t1 w -> forall v, (S t0 <= v <= S t1)%nat ->
  (forall r, kept r -> s_mem (st v) r = s_mem (st (S t0)) r) \/ (forall r, kept r -> s_mem (st v) r = s_mem (st (S t1)) r).
Proof.
  intros (_ & L & _ & N). apply (once s inp F Hr kept csw (fun _ => true) csr_post true (fun _ _ => eq_refl) csr_words csr_T1 csr_T2); [lia|reflexivity|]. intros x w' Hx. apply N. lia.
Qed.
Lemma gp_once u t1 : (1 <= u <= t1)%nat -> gp_safe (ad u) = true -> (forall x w, (u <= x < t1)%nat -> ~ fetch_done s inp x w) ->
  forall v, (u <= v <= S t1)%nat -> same v u \/ same v (S t1).
Proof. intros Hu Hs. apply (once s inp F Hr gp gpw gp_safe gp_post false ltac:(discriminate) gp_words gp_T1 gp_T2); assumption. Qed.

Theorem gp_instruction t0 t1 w a : executes s inp t0 t1 w -> machine s inp t0 = Fetching a -> forall v, (S t0 <= v <= S t1)%nat ->
  same v (S t0) \/ same v (S t1) \/
  (int_enabled a && irq (inp (S t0)) = false /\ exists i f rd rs1 n j, decode w = Some i /\ shift_insn a i = Some (f, rd, rs1, n) /\ 1 <= j < n /\
   forall r, gp r -> s_mem (st v) r = if r =? rd then alu f (rd_x a rs1) j else s_mem (st (S t0)) r).
Proof.
  intros (Fd & L & (w1 & Fd1) & N) Ma v Hv. pose proof Fd as (C0 & _ & A0 & Dw). pose proof (fetch_boundary s inp K t0 a C0 A0 Ma) as B. rewrite Dw in B.
  assert (Hw : word w) by (rewrite <- Dw; apply K).
  pose proof (b_at _ _ _ B) as At. pose proof (b_rel _ _ _ B) as R. pose proof (b_wf _ _ _ B) as W.
  pose proof (ad_at (S t0) 1 ltac:(lia) ltac:(lia) At) as A1. pose proof (not_fetching _ _ Fd1) as U1.
  assert (St1 : same (S (S t0)) (S t0)). { intros r G. apply gp_words; [lia| |exact G]. destruct At as (-> & _). reflexivity. }
  assert (L1 : (S (S t0) <= t1)%nat). { destruct (Nat.eq_dec t1 (S t0)) as [->|]; [|lia]. destruct At as (Hu & _). rewrite Hu in U1. discriminate U1. }
  (* what is left to show when control is at a safe place in cycle u *)
  assert (Go : forall u, (S (S t0) <= u <= t1)%nat -> (forall x, (S t0 <= x <= u)%nat -> same x (S t0)) -> gp_safe (ad u) = true -> same v (S t0) \/ same v (S t1)).
  { intros u Hu Sm Sf. destruct (Nat.le_gt_cases v u) as [Lv|Lv]; [left; apply Sm; lia|].
    destruct (gp_once u t1 ltac:(lia) Sf ltac:(intros x w' Hx; apply N; lia) v ltac:(lia)) as [E|E]; [left|right; exact E]. intros r G. rewrite (E r G). apply (Sm u ltac:(lia) r G). }
  assert (Go2 : gp_safe (ad (S (S t0))) = true -> same v (S t0) \/ same v (S t1)).
  { apply Go; [lia|]. intros x Hx. destruct (Nat.eq_dec x (S t0)) as [->|]; [intros r G; reflexivity|]. replace x with (S (S t0)) by lia. exact St1. }
  destruct (moves s inp F Hr (S t0) ltac:(lia)) as (e & z & Ee & Mv). rewrite A1, rom1 in Mv.
  assert (Exc : e = ex_valid (s_exc (st (S t0))) || (int_enabled a && irq (inp (S t0)))).
  { rewrite Ee. unfold exc_now. destruct At as (-> & _). change (exception_of (rom 1) ?x ?y ?c ?q) with (y || int_pending c q). rewrite (int_pending_rel a _ _ R). reflexivity. }
  destruct e; [destruct Go2 as [G|G]; [rewrite Mv; reflexivity|left; exact G|right; left; exact G]|].
  symmetry in Exc. apply orb_false_elim in Exc. destruct Exc as [V0 I1].
  destruct (decode w) as [i|] eqn:D.
  2:{ destruct (decode_none w Hw D) as [V _]. rewrite (b_exc _ _ _ B) in V0. cbn [ex_valid] in V0. congruence. }
  destruct (b_map _ _ _ B) as (c & e & M). rewrite M in Mv. cbn [mp_req] in Mv.
  destruct (is_csr i) eqn:Ci.
  { (* CSR instructions *)
    assert (G : same v (S t0) \/ same v (S t1)); [|tauto].
    destruct i as [| | | | | | | | | | | | | |f rd g n]; try discriminate. destruct (decode_csr w f rd g n c D) as (V & Mc & Ec & Me & Fit).
    destruct Fit as (-> & -> & imm & -> & F3).
    pose proof (check_pass a (st (S t0)) (ack (inp (S t0))) (dat_r (inp (S t0))) (irq (inp (S t0))) 0x24 At R I1 V0 (b_rdata _ _ _ B)) as P.
    rewrite M in P. cbn [mp_req] in P. specialize (P Me ltac:(lia)). rewrite (b_exc _ _ _ B) in P. cbv zeta in P.
    cbn [mp_src_a mp_dst mp_fwd mp_op mp_req mp_enc ex_src_a ex_fwd ex_quad ex_op ex_ro ex_valid ex_type] in P. rewrite Mc, Ec in P.
    rewrite <- step_nst in P by apply Hr. change (step (st (S t0)) (inp (S t0))) with (st (S (S t0))) in P.
    destruct P as (A2 & _ & _ & _ & _ & _ & _ & _ & _ & M1 & V1 & _).
    assert (L2 : (S (S (S t0)) <= t1)%nat). { destruct (Nat.eq_dec t1 (S (S t0))) as [->|]; [|lia]. destruct A2 as (Hu & _). rewrite Hu in U1. discriminate U1. }
    assert (St2 : same (S (S (S t0))) (S t0)). { intros r G. rewrite <- (St1 r G). apply gp_words; [lia| |exact G]. destruct A2 as (-> & _). reflexivity. }
    apply (Go (S (S (S t0)))); [lia| |].
    { intros x Hx. destruct (Nat.eq_dec x (S t0)) as [->|]; [intros r G; reflexivity|]. destruct (Nat.eq_dec x (S (S t0))) as [->|]; [exact St1|]. replace x with (S (S (S t0))) by lia. exact St2. }
    destruct (moves s inp F Hr (S (S t0)) ltac:(lia)) as (e2 & z2 & Ee2 & Mv2). rewrite (ad_at (S (S t0)) 36 ltac:(lia) ltac:(lia) A2), rom36 in Mv2.
    destruct e2; [rewrite Mv2; reflexivity|]. rewrite M1 in Mv2. cbn [mp_req] in Mv2.
    assert (Va : ex_valid (s_exc (st (S (S t0)))) = false).
    { symmetry in Ee2. unfold exc_now in Ee2. destruct A2 as (Hu2 & _). rewrite Hu2 in Ee2. change (exception_of (rom 36) ?x ?y ?c ?q) with (y || int_pending c q) in Ee2. apply orb_false_elim in Ee2. apply Ee2. }
    rewrite V1 in Va. assert (Il : ill (s_attr (st (S t0))) = false). { unfold exc_second in Va. destruct (ill _); [discriminate Va|reflexivity]. }
    rewrite Mv2. unfold map_second. rewrite Il. change (i_funct3 w) with (fld w 12 3). rewrite F3.
    destruct (ro0 _); [reflexivity|]. destruct f, imm; destruct (i_rd w =? 0), (i_rs1 w =? 0); reflexivity. }
  destruct (shift_insn a i) as [[[[f rd] rs1] n]|] eqn:Sh.
  2:{ assert (G : same v (S t0) \/ same v (S t1)); [|tauto].
    assert (Hec : i = Ecall \/ i = Ebreak \/ (i <> Ecall /\ i <> Ebreak)) by (destruct i; intuition congruence).
    destruct Hec as [->|[->|[He Hb]]].
    { apply decode_ecall in D. rewrite (b_exc _ _ _ B), D in V0. discriminate V0. }
    { apply decode_ebreak in D. rewrite (b_exc _ _ _ B), D in V0. discriminate V0. }
    destruct (decode_some w i c 0 D Ci He Hb) as (_ & _ & _ & Me & _). rewrite Me in Mv. apply Go2. rewrite Mv.
    destruct i as [| | | |cc ? ? ?|sz sg ? ? ?|sz ? ? ?|f ? ? ?|f ? ? ?| | | | | |]; cbn [entry shift_insn] in *; try reflexivity; try congruence; try discriminate Ci; try solve [destruct cc; reflexivity | destruct sz, sg; reflexivity | destruct sz; reflexivity | destruct f; first [reflexivity | discriminate Sh]]. }
  (* shifts *)
  assert (He : i <> Ecall) by (intros ->; discriminate Sh). assert (Hb : i <> Ebreak) by (intros ->; discriminate Sh).
  destruct (b_imm _ _ _ B) as (c' & Im).
  destruct (decode_some w i c c' D Ci He Hb) as (_ & Mc & Ec & Me & Fit). rewrite <- Im in Fit.
  assert (Rg : 0 <= entry i < 255). { destruct i as [| | | | | | |f0 ? ? ?|f0 ? ? ?| | | | | |]; try discriminate Sh; cbn [entry shift_insn] in *; destruct f0; try discriminate Sh; cbn; lia. }
  pose proof (check_pass a (st (S t0)) (ack (inp (S t0))) (dat_r (inp (S t0))) (irq (inp (S t0))) (entry i) At R I1 V0 (b_rdata _ _ _ B)) as P.
  rewrite M in P. cbn [mp_req] in P. specialize (P Me Rg).
  pose proof (query_rel 1 a _ (ack (inp (S t0))) (dat_r (inp (S t0))) (irq (inp (S t0))) (or_introl eq_refl) At R I1) as R1.
  cbv zeta in P. rewrite <- step_nst in P, R1 by apply Hr. change (step (st (S t0)) (inp (S t0))) with (st (S (S t0))) in P, R1.
  pose proof (st_wf (S (S t0))) as W1.
  destruct P as (A2 & S2 & Ra & Rd & Sa & Sb & Sd & Si & Sm & _).
  rewrite <- Si in Fit. rewrite (b_src_a _ _ _ B) in Sa. rewrite (b_src_b _ _ _ B) in Sb. rewrite (b_dst _ _ _ B) in Sd.
  assert (Ds : dispatched (entry i) (st (S (S t0)))) by (constructor; assumption).
  unfold fits in Fit. cbv zeta in Fit. rewrite <- Sa, <- Sb, <- Sd in Fit.
  assert (Kp : is_shift f = true /\ rd = s_dst (st (S (S t0))) /\ rs1 = s_src_a (st (S (S t0))) /\ exists Nn, keeps inp (upto f rd (rd_x a rs1) (s_mem (st (S (S t0)))) n)
    (fun s' => if n =? 0 then at_ 104 s' /\ (forall r, gp r -> s_mem s' r = s_mem (st (S (S t0))) r) else at_ 0 s' /\ shifted f rd (rd_x a rs1) (s_mem (st (S (S t0)))) n s') Nn (S (S t0)) (st (S (S t0)))).
  { destruct i as [| | | | | | |f0 ? ? ?|f0 ? ? ?| | | | | |]; try discriminate Sh; cbn [shift_insn entry] in Sh, Ds; destruct (is_shift f0) eqn:Is; try discriminate Sh; injection Sh as <- <- <- <-.
    - destruct Fit as (-> & -> & Fi). split; [exact Is|]. split; [reflexivity|]. split; [reflexivity|]. destruct Fi as [Fr Fi]. apply shifti_keeps; assumption.
    - destruct Fit as (-> & -> & ->). split; [exact Is|]. split; [reflexivity|]. split; [reflexivity|]. apply shift_keeps; assumption. }
  destruct Kp as (Is & _ & _ & Nn & Kp). destruct (keeps_run inp _ _ s Nn _ _ Kp eq_refl Hr) as (Q & P & Nf). set (t2 := (S (S t0) + Nn)%nat) in *.
  assert (L2 : (t2 <= t1)%nat). { destruct (Nat.le_gt_cases t2 t1) as [|L2]; [assumption|]. rewrite Nf in U1 by lia. discriminate U1. }
  destruct (Z.eqb_spec n 0) as [->|Nz].
  - (* amount 0 *)
    destruct P as [A4 P]. assert (G : same v (S t0) \/ same v (S t1)); [|tauto]. apply (Go t2); [lia| |rewrite (ad_at t2 104 ltac:(lia) ltac:(lia) A4); reflexivity].
    intros x Hx. destruct (Nat.eq_dec x (S t0)) as [->|]; [intros r G; reflexivity|]. destruct (Q x ltac:(lia)) as (j & Hj & Sj). intros r G. rewrite (Sj r G). replace j with 0 by lia. change (1 <=? 0) with false. rewrite andb_false_r. apply St1; exact G.
  - destruct P as [A4 P].
    assert (Po : forall x, (t2 <= x <= S t1)%nat -> same x (S t1)).
    { assert (P2 : forall n x, (x = t2 + n)%nat -> (x <= t1)%nat -> gp_post (ad x) = true /\ same x t2).
      { induction n0 as [|n0 IH]; intros x -> Hx; [rewrite Nat.add_0_r; split; [rewrite (ad_at t2 0 ltac:(lia) ltac:(lia) A4); reflexivity|intros r G; reflexivity]|].
        destruct (IH (t2 + n0)%nat eq_refl ltac:(lia)) as [Px Sx]. rewrite Nat.add_succ_r in *.
        destruct (alive s inp F Hr (t2 + n0) ltac:(lia)) as (Hk & Hu & _). destruct (moves s inp F Hr (t2 + n0) ltac:(lia)) as (e3 & z3 & _ & Mv3).
        pose proof (check_all _ _ e3 z3 (ack (inp (t2 + n0)%nat)) gp_T2 Hk) as T. cbv beta in T. rewrite Px in T. cbn [negb orb] in T. apply andb_prop in T. destruct T as [Tw T]. apply negb_true_iff in Tw.
        rewrite (no_decode s inp F Hr) in T by (try lia; intros w'; apply N; lia). cbn [orb] in T. split; [destruct (next_of _ _); [rewrite Mv3; exact T|discriminate]|].
        intros r G. rewrite gp_words by (try lia; try rewrite Hu; assumption). apply Sx; exact G. }
      intros x Hx. destruct (Nat.eq_dec x (S t1)) as [->|]; [intros r G; reflexivity|]. destruct (P2 (x - t2)%nat x ltac:(lia) ltac:(lia)) as [Px _]. intros r G.
      apply (after_post s inp F Hr gp gpw gp_post gp_words gp_T2 t1 (S t1 - x)); try lia; [left; exact Px|intros y w' Hy; apply N; lia|exact G]. }
    destruct (Nat.le_gt_cases t2 v) as [Lv|Lv]; [right; left; apply Po; lia|].
    destruct (Nat.eq_dec v (S t0)) as [->|Nv]; [left; intros r G; reflexivity|].
    destruct (Q v ltac:(lia)) as (j & Hj & Sj). destruct (Z.eq_dec j 0) as [->|J0].
    { left. intros r G. rewrite (Sj r G). change (1 <=? 0) with false. rewrite andb_false_r. apply St1; exact G. }
    destruct (Z.eq_dec j n) as [->|Jn].
    { right. left. intros r G. rewrite <- (Po t2 ltac:(lia) r G), (P r G). apply Sj; exact G. }
    right. right. split; [exact I1|]. exists i, f, rd, rs1, n, j. split; [reflexivity|]. split; [exact Sh|]. split; [lia|].
    intros r G. rewrite (Sj r G), (proj2 (Z.leb_le 1 j)) by lia. rewrite andb_true_r. destruct (r =? rd); [reflexivity|]. apply St1; exact G.
Qed.
End Insn.

(** ** Proofs: one life *)
Lemma booting_writes : check (fun k _ _ _ => implb (memz k booting) (negb (gpw (rom k)) && negb (csw (rom k)))) = true.
Proof. vm_compute. reflexivity. Qed.
Lemma either phys a m i1 i2 i3 : let am := flat_step phys (a, m) i1 i2 i3 in
  (forall z, snd am z = m z) \/ (forall r, rd_x (fst am) r = rd_x a r).
Proof.
  cbv zeta. unfold flat_step. destruct (_ && i1); [left; reflexivity|]. destruct (decode _) as [i|]; [|left; reflexivity]. destruct (_ && _); [left; reflexivity|].
  destruct i as [| | | | |sz sg ? ? ?|sz rs1 rs2 off|f ? ? ?|f ? ? ?| | | | | |]; try (left; reflexivity); try (destruct (exec _ _ _ _); left; reflexivity).
  - destruct (aligned _ _); left; reflexivity.
  - destruct (aligned _ _); [right; reflexivity|left; reflexivity].
Qed.
Lemma shift_mem phys a m i1 i2 i3 i x : int_enabled a && i1 = false -> decode (peek phys m (pc a) 4) = Some i -> shift_insn a i = Some x -> snd (flat_step phys (a, m) i1 i2 i3) = m.
Proof. intros I D Sh. unfold flat_step. rewrite I, D. destruct i; try discriminate Sh; reflexivity. Qed.

Section Boot.
Variables (s : state) (inp : nat -> input).
Hypothesis K : ok s inp.
Local Notation st := (run s inp).
Local Notation fetch t := (o_cyc (run s inp t) && ack (inp t) && u_fetch (s_u (run s inp t))).
Let Hf : fresh s. Proof. apply K. Qed.
Let Hr t : rst (inp t) = false. Proof. apply K. Qed.
Lemma fetch_dec t : (exists w, fetch_done s inp t w) \/ fetch t = false.
Proof. destruct (fetch t) eqn:E; [left|right; reflexivity]. apply andb_prop in E. destruct E as [E U]. apply andb_prop in E. destruct E as [C A]. exists (dat_r (inp t)). repeat split; assumption. Qed.
Lemma fetch_true t w : fetch_done s inp t w -> fetch t = true.
Proof. intros (C & U & A & _). rewrite C, U, A. reflexivity. Qed.
(** Before the first fetch. *)
Lemma boot_words t : (1 <= t)%nat -> (forall u, (u < t)%nat -> fetch u = false) ->
  (forall r, gp r -> s_mem (st t) r = rd_x (boot_arch s) r) /\ s_mem (st t) 37 = mtvec (boot_arch s) /\ s_mem (st t) 40 = mscratch (boot_arch s).
Proof.
  intros Ht N. pose proof (stale s (ack (inp 0%nat)) (dat_r (inp 0%nat)) (irq (inp 0%nat)) Hf) as P. cbv zeta in P. destruct P as (_ & _ & A & _ & _ & _ & _ & Pm & _).
  rewrite <- step_nst in A, Pm by apply Hr. change (step s (inp 0%nat)) with (st 1) in A, Pm.
  assert (H : forall n, (1 + n <= t)%nat -> memz (adr s inp (1 + n)) booting = true /\ forall r, gp r \/ kept r -> s_mem (st (1 + n)) r = s_mem (st 1) r).
  { induction n as [|n IH]; intros Hn; [split; [|reflexivity]|].
    - change (1 + 0)%nat with 1%nat. rewrite (ad_at s inp K 1 2 (le_n _) ltac:(lia) A). reflexivity.
    - destruct (IH ltac:(lia)) as [B E]. rewrite Nat.add_succ_r. set (u := (1 + n)%nat) in *. assert (Hu1 : (1 <= u)%nat) by (unfold u; lia).
      destruct (alive s inp Hf Hr u Hu1) as (Hk & Hu & _). destruct (moves s inp Hf Hr u Hu1) as (e & z & _ & Mv).
      pose proof (check_all _ _ e z (ack (inp u)) booting_table Hk) as T. pose proof (check_all _ _ e z (ack (inp u)) booting_writes Hk) as Tw. cbv beta in T, Tw. rewrite B in T, Tw. cbn [implb] in T, Tw.
      apply andb_prop in Tw. destruct Tw as [Tg Tc]. apply negb_true_iff in Tg, Tc. split.
      + destruct (next_of _ _) as [j|]; [|discriminate]. rewrite Mv. apply orb_prop in T. destruct T as [T|T]; [exact T|exfalso]. apply andb_prop in T. destruct T as [T1 T2]. apply Z.eqb_eq in T1.
        pose proof (no_decode s inp Hf Hr u Hu1) as Nd. rewrite T1, T2 in Nd. discriminate Nd. intros w Fw. apply fetch_true in Fw. rewrite N in Fw by lia. discriminate Fw.
      + intros r G. rewrite <- (E r G). destruct G as [G|G]; [apply (gp_words s inp K u); [exact Hu1|rewrite Hu; exact Tg|exact G]|apply (csr_words s inp K u); [exact Hu1|rewrite Hu; exact Tc|exact G]]. }
  destruct (H (t - 1)%nat ltac:(lia)) as [_ E]. replace (1 + (t - 1))%nat with t in E by lia. split; [|split].
  - intros r G. rewrite (E r (or_introl G)), Pm. unfold rd_x, gp in *. destruct (Z.eqb_spec r 0); [lia|]. reflexivity.
  - rewrite (E 37 (or_intror (or_introl eq_refl))), Pm. reflexivity.
  - rewrite (E 40 (or_intror (or_intror eq_refl))), Pm. reflexivity.
Qed.
Lemma last_fetch t : (forall u, (u < t)%nat -> fetch u = false) \/ exists t0, (t0 < t)%nat /\ fetch t0 = true /\ forall u, (t0 < u < t)%nat -> fetch u = false.
Proof.
  induction t as [|t [N|(t0 & L & Ft & N)]]; [left; lia| |].
  - destruct (fetch t) eqn:E; [right; exists t; split; [lia|]; split; [exact E|lia]|left]. intros u Hu. destruct (Nat.eq_dec u t) as [->|]; [exact E|apply N; lia].
  - right. destruct (fetch t) eqn:E; [exists t; split; [lia|]; split; [exact E|lia]|]. exists t0. split; [lia|]. split; [exact Ft|]. intros u Hu. destruct (Nat.eq_dec u t) as [->|]; [exact E|apply N; lia].
Qed.
End Boot.

Section Life.
Variables (k : Z) (iw : nat -> bool) (s : state) (m : wbmem).
Hypothesis (Hf : fresh s) (Hm : mem_start m).
Local Notation inp := (sys_inp k iw s m).
Local Notation phys := (phys k).
Local Notation m0 := (mem_byte (wm_mem m)).
Local Notation flat := (flat_at phys s inp m0).
Local Notation now t := (mem_byte (wm_mem (snd (system k iw s m t)))).
Local Notation fb := (fetched_before s inp).
Local Notation st := (run s inp).
Local Notation fetch t := (o_cyc (st t) && ack (inp t) && u_fetch (s_u (st t))).
Let K : ok s inp := bus_ok_ok _ _ (sys_bus_ok k iw s m Hf Hm).
Let Hr : forall t, rst (inp t) = false.
Proof. intros t. apply K. Qed.

Lemma fb_S t : fb (S t) = (fb t + if fetch t then 1 else 0)%nat.
Proof. unfold fetched_before. apply count_S. Qed.
Lemma fb_mono u t : (u <= t)%nat -> (fb u <= fb t)%nat.
Proof. induction 1 as [|t L IH]; [lia|]. rewrite fb_S. lia. Qed.
Lemma oracle t : exists o, forall u, (u <= t)%nat -> flat u = instructions phys o (fb u) (boot_arch s, m0) /\ ((u < t)%nat -> fetch u = true -> forall i, o (fb u) i = irq (inp (u + i)%nat)).
Proof.
  induction t as [|t (o & IH)].
  - exists (fun _ _ => false). intros u Hu. replace u with O by lia. split; [reflexivity|lia].
  - destruct (fetch t) eqn:Ft.
    + set (o' := fun j i => if Nat.eqb j (fb t) then irq (inp (t + i)%nat) else o j i). exists o'.
      assert (Old : forall u, (u <= t)%nat -> flat u = instructions phys o' (fb u) (boot_arch s, m0)).
      { intros u Hu. rewrite (proj1 (IH u Hu)). apply instructions_ext. intros j i Hj. unfold o'. pose proof (fb_mono u t Hu). rewrite (proj2 (Nat.eqb_neq _ _)) by lia. reflexivity. }
      intros u Hu. destruct (Nat.eq_dec u (S t)) as [->|Ne].
      * split; [|lia]. rewrite fb_S, Ft, Nat.add_1_r. cbn [flat_at instructions]. cbv zeta. rewrite Ft, <- (Old t (le_n _)). unfold o'. rewrite Nat.eqb_refl. reflexivity.
      * split; [apply Old; lia|]. intros _ Fu i. unfold o'. destruct (Nat.eqb_spec (fb u) (fb t)) as [E|E].
        -- destruct (Nat.eq_dec u t) as [->|]; [reflexivity|]. exfalso. pose proof (fb_mono (S u) t ltac:(lia)) as Mo. rewrite fb_S, Fu in Mo. lia.
        -- apply IH; try lia; [|assumption]. destruct (Nat.eq_dec u t) as [->|]; [congruence|lia].
    + exists o. intros u Hu. destruct (Nat.eq_dec u (S t)) as [->|Ne].
      * split; [|lia]. rewrite fb_S, Ft, Nat.add_0_r. cbn [flat_at]. cbv zeta. rewrite Ft. apply IH; lia.
      * destruct (IH u ltac:(lia)) as [I1 I2]. split; [exact I1|]. intros _ Fu. apply I2; [|exact Fu]. destruct (Nat.eq_dec u t) as [->|]; [congruence|lia].
Qed.
Lemma flat_since u n : (forall x, (u <= x < u + n)%nat -> fetch x = false) -> flat (u + n) = flat u /\ fb (u + n) = fb u.
Proof.
  induction n as [|n IH]; intros N; [rewrite Nat.add_0_r; auto|]. rewrite Nat.add_succ_r, fb_S. cbn [flat_at]. cbv zeta. rewrite N by lia. rewrite Nat.add_0_r. apply IH. intros; apply N; lia.
Qed.
Lemma not_fetched t : (forall w, ~ fetch_done s inp t w) -> fetch t = false.
Proof. intros N. destruct (fetch_dec s inp t) as [[w H]|]; [exfalso; exact (N w H)|assumption]. Qed.
(** At a fetch the register RAM is the machine's. *)
Lemma fetch_words t w : fetch_done s inp t w -> machine s inp t = Fetching (fst (flat t)) /\ w = peek phys (snd (flat t)) (pc (fst (flat t))) 4 /\
  (forall r, gp r -> s_mem (st (S t)) r = rd_x (fst (flat t)) r) /\ s_mem (st (S t)) 37 = mtvec (fst (flat t)) /\ s_mem (st (S t)) 40 = mscratch (fst (flat t)).
Proof.
  intros Fd. pose proof (sys_memory_slave k iw s m Hf Hm) as Ms. pose proof (tracks_all phys s inp m0 K Ms t) as Tr. unfold tracks in Tr.
  destruct (fetch_machine s inp K t w Fd) as [a M]. pose proof Fd as (C & U & A & Dw). rewrite M in Tr.
  pose proof (fetch_boundary s inp K t a C A M) as B. pose proof (b_rel _ _ _ B) as R.
  pose proof (fetched_word phys s inp m0) as Fw. destruct (flat t) as [a' m'] eqn:Ef. destruct Tr as [-> Tm]. cbn [fst snd].
  split; [exact M|]. split; [|split; [|split]].
  - rewrite <- Dw. eapply Fw; eassumption.
  - intros r G. unfold gp in G. symmetry. apply (r_x _ _ _ _ _ _ _ _ R). lia.
  - symmetry. apply (r_mtvec _ _ _ _ _ _ _ _ R).
  - symmetry. apply (r_mscratch _ _ _ _ _ _ _ _ R).
Qed.
Theorem every_cycle t : (1 <= t)%nat -> exists o n q, (fb t = n \/ fb t = S n) /\ (fb t = q \/ fb t = S q) /\
  left_behind phys o (boot_arch s, m0) n q {| l_x := s_mem (st t); l_mem := now t; l_mtvec := s_mem (st t) 37; l_mscratch := s_mem (st t) 40 |}.
Proof.
  intros Ht. destruct (last_fetch s inp t) as [N|(t0 & L0 & Ft & N)].
  - (* not yet fetched anything *)
    destruct (flat_since 0 t ltac:(intros; apply N; lia)) as [Ef Eb]. change (0 + t)%nat with t in Ef, Eb. change (fb 0) with O in Eb. cbn [flat_at] in Ef.
    exists (fun _ _ => false), O, O. split; [left; exact Eb|]. split; [left; exact Eb|]. destruct (boot_words s inp K t Ht N) as (B1 & B2 & B3). split; [|split; cbn [l_mtvec l_mscratch instructions fst]; assumption].
    eapply whole; [reflexivity|exact B1|]. cbn [l_mem]. destruct (point k iw s m Hf Hm t) as [P|(r & k0 & _ & _ & _ & u & _ & _ & C)].
    + intros z. rewrite P, Ef. reflexivity.
    + exfalso. fold (fb t) in C. lia.
  - assert (Fd0 : fetch_done s inp t0 (dat_r (inp t0))). { destruct (fetch_dec s inp t0) as [[w Fw]|]; [|congruence]. pose proof Fw as (_ & _ & _ & <-). exact Fw. }
    destruct (next_fetch s inp 1 K (two_cycle_answers s inp K (sys_two_cycle k iw s m Hf Hm)) t0 _ Fd0) as (t1 & Ex & _).
    assert (L1 : (t <= t1)%nat). { destruct Ex as (_ & L & (w1 & F1) & _). destruct (Nat.le_gt_cases t t1) as [|G]; [assumption|]. apply fetch_true in F1. rewrite N in F1 by lia. discriminate F1. }
    pose proof Ex as (_ & Lt & (w1 & Fd1) & Nx).
    destruct (fetch_words t0 _ Fd0) as (M0 & Hw & X0 & V0 & S0). destruct (fetch_words t1 w1 Fd1) as (_ & _ & X1 & V1 & S1).
    destruct (flat_since (S t0) (t1 - S t0)) as [Ef1 _]. { intros x Hx. apply not_fetched. intros w. apply Nx. lia. } replace (S t0 + (t1 - S t0))%nat with t1 in Ef1 by lia.
    destruct (flat_since (S t0) (t - S t0)) as [Ef Eb]. { intros x Hx. apply N. lia. } replace (S t0 + (t - S t0))%nat with t in Ef, Eb by lia. rewrite fb_S, Ft, Nat.add_1_r in Eb.
    rewrite Ef1 in X1, V1, S1.
    destruct (oracle t) as (o & Ho). destruct (Ho t0 ltac:(lia)) as [H0 Hi]. specialize (Hi L0 Ft). pose proof (proj1 (Ho t (le_n _))) as H1. rewrite Ef in H1. rewrite Eb in H1.
    set (A := fst (flat t0)) in *. set (B := fst (flat (S t0))) in *.
    assert (E0 : instructions phys o (fb t0) (boot_arch s, m0) = (A, snd (flat t0))) by (rewrite <- H0; apply surjective_pairing).
    assert (E1 : instructions phys o (S (fb t0)) (boot_arch s, m0) = (B, snd (flat (S t0)))) by (rewrite <- H1; apply surjective_pairing).
    assert (Ei : (forall z, snd (flat (S t0)) z = snd (flat t0) z) \/ (forall r, rd_x B r = rd_x A r)).
    { unfold B. cbn [flat_at]. cbv zeta. rewrite Ft. pose proof (either phys A (snd (flat t0)) (irq (inp (t0 + 1)%nat)) (irq (inp (t0 + 2)%nat)) (irq (inp (t0 + 3)%nat))) as E. cbv zeta in E. unfold A in E. rewrite <- surjective_pairing in E. exact E. }
    (* memory: before or after *)
    assert (Mm : (forall z, now t z = snd (flat t0) z) \/ (forall z, now t z = snd (flat (S t0)) z)).
    { destruct (point k iw s m Hf Hm t) as [P|(r & k0 & _ & _ & _ & u & Lu & P & C)]; [right; intros z; rewrite P, Ef; reflexivity|left].
      fold (fb t) (fb u) in C. assert (Eu : fb u = fb t0) by lia. intros z. rewrite P, (proj1 (Ho u ltac:(lia))), Eu, <- H0. reflexivity. }
    (* the CSRs *)
    assert (Cs : exists q, (fb t = q \/ fb t = S q) /\ s_mem (st t) 37 = mtvec (fst (instructions phys o q (boot_arch s, m0))) /\ s_mem (st t) 40 = mscratch (fst (instructions phys o q (boot_arch s, m0)))).
    { destruct (csr_once s inp K t0 t1 _ Ex t ltac:(lia)) as [E|E].
      - exists (fb t0). split; [lia|]. rewrite E0, (E 37 (or_introl eq_refl)), (E 40 (or_intror eq_refl)). split; assumption.
      - exists (S (fb t0)). split; [lia|]. rewrite E1, (E 37 (or_introl eq_refl)), (E 40 (or_intror eq_refl)). split; assumption. }
    destruct Cs as (q & Hq & Cq). exists o.
    assert (Gs : exists n, (fb t = n \/ fb t = S n) /\ stopped phys o (boot_arch s, m0) n (s_mem (st t)) (now t)).
    { destruct (gp_instruction s inp K t0 t1 _ A Ex M0 t ltac:(lia)) as [E|[E|(I1 & i & f & rd & rs1 & n & j & D & Sh & Hj & E)]].
      - assert (Xt : forall r, 1 <= r < 32 -> s_mem (st t) r = rd_x A r) by (intros r G; rewrite (E r G); apply X0; exact G).
        destruct Mm as [Mm|Mm]; [exists (fb t0); split; [lia|]; eapply whole; [exact E0|exact Xt|exact Mm]|].
        destruct Ei as [Ei|Ei]; [exists (fb t0); split; [lia|]; eapply whole; [exact E0|exact Xt|intros z; rewrite Mm; apply Ei]|].
        exists (S (fb t0)). split; [lia|]. eapply whole; [exact E1|intros r G; rewrite Ei; apply Xt; exact G|exact Mm].
      - assert (Xt : forall r, 1 <= r < 32 -> s_mem (st t) r = rd_x B r) by (intros r G; rewrite (E r G); apply X1; exact G).
        destruct Mm as [Mm|Mm]; [|exists (S (fb t0)); split; [lia|]; eapply whole; [exact E1|exact Xt|exact Mm]].
        destruct Ei as [Ei|Ei]; [exists (S (fb t0)); split; [lia|]; eapply whole; [exact E1|exact Xt|intros z; rewrite Mm; symmetry; apply Ei]|].
        exists (fb t0). split; [lia|]. eapply whole; [exact E0|intros r G; rewrite <- Ei; apply Xt; exact G|exact Mm].
      - exists (fb t0). split; [lia|]. rewrite Hw in D.
        assert (Sm : forall z, now t z = snd (flat t0) z).
        { destruct Mm as [Mm|Mm]; [exact Mm|]. intros z. rewrite Mm. cbn [flat_at]. cbv zeta. rewrite Ft. rewrite (surjective_pairing (flat t0)). rewrite Nat.add_1_r.
          rewrite (shift_mem phys (fst (flat t0)) (snd (flat t0)) _ _ _ i _ I1 D Sh). reflexivity. }
        eapply part; [exact E0|rewrite Hi, Nat.add_1_r; exact I1|exact D|exact Sh|exact Hj| |exact Sm].
        intros r G. rewrite (E r G). destruct (r =? rd); [reflexivity|]. apply X0; exact G. }
    destruct Gs as (n & Hn & Gs). exists n, q. split; [exact Hn|]. split; [exact Hq|]. split; [exact Gs|exact Cq].
Qed.
End Life.

(** ** Proofs: many lives *)
Lemma step_mem s i j : s_mem (step s i) = s_mem (step s j).
Proof. unfold step. destruct (rst i), (rst j); reflexivity. Qed.
Lemma fresh_gp s r : fresh s -> 1 <= r < 32 -> rd_x (boot_arch s) r = s_mem s r.
Proof.
  intros Hf Hr. pose proof (stale s false 0 false Hf) as P. cbv zeta in P. destruct P as (_ & _ & _ & _ & _ & _ & _ & _ & _ & P & _).
  unfold rd_x. destruct (Z.eqb_spec r 0); [lia|]. apply P. exact Hr.
Qed.
Lemma fresh_kept s k r : fresh s -> 0 <= k < 256 -> s_u s = rom k -> kept r -> s_mem (nst s false 0 false) r = s_mem s r.
Proof.
  intros (u & m & rd & -> & _) Hk Hu Hr. cbn [reset_regs s_u] in Hu. subst u. unfold nst, step. cbn [rst mki reset_regs s_u s_dst s_map mp_enc map_init s_mem s_alu].
  unfold rf_mem_next. destruct (rf_wen _ _ _) eqn:We; [|reflexivity]. unfold upd.
  destruct (Z.eqb_spec r (rf_waddr (rom k) (reg_w_adr (rom k) 0) (csr_adr (rom k) 0))) as [Q|]; [exfalso|reflexivity].
  pose proof (check_all _ k true true true trg_table Hk) as T. cbv beta in T.
  revert Q We T. unfold rf_waddr, reg_w_adr, rf_wen, csr_adr, kept in *. change (2 ^ 5) with 32.
  destruct (u_csr (rom k)), (u_wsel (rom k)), (u_csel (rom k)); intros; try lia; try discriminate.
  all: apply andb_prop in T; destruct T as [T1 T2]; apply negb_true_iff, Z.eqb_neq in T1, T2; lia.
Qed.

Section Lives.
Variables (k : Z) (rw iw : nat -> bool) (s : state) (m : wbmem).
Hypothesis (Hf : fresh s) (Hm : mem_start m).
Local Notation sys := (rsystem k rw iw s m).
Local Notation hold t := (holds (fst (sys t)) (snd (sys t))).
Local Notation m0 := (fun z => byte (wm_mem m (z / 4)) (z mod 4)).

Lemma J_sys t : exists j, J j (fst (sys t)).
Proof.
  induction t as [|t (j & IH)]; [exists (-1); apply J_fresh; exact Hf|]. cbn [rsystem]. destruct (sys t) as [c d]. cbn [fst] in *. eexists. apply (J_step j). exact IH.
Qed.
Lemma rom_sys t : exists j, 0 <= j < 256 /\ s_u (fst (sys (S t))) = rom j.
Proof.
  destruct (J_sys t) as (j & Hj). cbn [rsystem]. destruct (sys t) as [c d]. cbn [fst] in *. eexists. split; [apply (seq_range j c (rinput d (rw t) (iw t)) Hj)|apply step_u].
Qed.
Lemma holds_eq c d c' d' : s_mem c = s_mem c' -> wm_mem d = wm_mem d' -> holds c d = holds c' d'.
Proof. unfold holds. intros -> ->. reflexivity. Qed.
(** A life of at least one cycle, ended by a reset or not. *)
Lemma life T n x : fresh (fst (sys T)) -> mem_start (snd (sys T)) -> (forall u, (u < n)%nat -> rw (T + u)%nat = false) -> x = S (T + n) \/ x = (T + n)%nat /\ (1 <= n)%nat ->
  exists o j q, adjacent_to j q /\ left_behind (fun a => a mod 2 ^ k) o (boot_arch (fst (sys T)), fun z => byte (wm_mem (snd (sys T)) (z / 4)) (z mod 4)) j q (hold x).
Proof.
  intros F M H Hx. set (iw' := fun u => iw (T + u)%nat). pose proof (quiet k rw iw s m T n H) as E. fold iw' in E.
  assert (Eh : exists n', (1 <= n')%nat /\ hold x = holds (run (fst (sys T)) (sys_inp k iw' (fst (sys T)) (snd (sys T))) n') (snd (system k iw' (fst (sys T)) (snd (sys T)) n'))).
  { destruct Hx as [->|[-> Hn]].
    - exists (S n). split; [lia|]. rewrite sys_run. cbn [rsystem system]. rewrite E. destruct (system k iw' _ _ n) as [c d]. cbn [fst snd]. apply holds_eq; [apply step_mem|reflexivity].
    - exists n. split; [exact Hn|]. rewrite sys_run. rewrite E. reflexivity. }
  destruct Eh as (n' & Hn & ->). destruct (every_cycle k iw' _ _ F M n' Hn) as (o & j & q & Hj & Hq & Lb). exists o, j, q. split; [|exact Lb].
  unfold adjacent_to. lia.
Qed.
Lemma lives_since t : exists T n, t = (T + n)%nat /\ (forall u, (u < n)%nat -> rw (T + u)%nat = false) /\ fresh (fst (sys T)) /\ mem_start (snd (sys T)) /\
  ((T = O /\ resets rw t = O) \/ exists r T', T = S T' /\ history (fun a => a mod 2 ^ k) (boot_arch s) m0 r (hold T) /\ resets rw t = S r).
Proof.
  induction t as [|t (T & n & -> & H & F & M & Q)].
  - exists O, O. split; [reflexivity|]. split; [intros; lia|]. split; [exact Hf|]. split; [exact Hm|]. left. split; reflexivity.
  - unfold resets. rewrite count_S. fold (resets rw (T + n)). destruct (rw (T + n)%nat) eqn:R.
    + exists (S (T + n)), O. split; [lia|]. split; [intros; lia|].
      destruct (well k rw iw s m Hf Hm (T + n)) as (W1 & W2 & W3). destruct (well k rw iw s m Hf Hm (S (T + n))) as (W1' & W2' & W3').
      split. { cbn [rsystem]. destruct (sys (T + n)) as [c d]. cbn [fst] in *. apply step_reset_fresh; [exact W1|exact W3|exact R]. }
      split. { constructor; [exact W2'|exact W3'|]. cbn [rsystem]. destruct (sys (T + n)) as [c d]. cbn [snd wbmem_rstep wm_ack]. rewrite R. apply andb_false_r. }
      right. destruct (life T n (S (T + n)) F M H (or_introl eq_refl)) as (o & j & q & Aq & Lb). destruct Q as [(-> & Q)|(r & T' & -> & Lr & Q)]; rewrite Q.
      * exists O, (0 + n)%nat. split; [reflexivity|]. split; [|reflexivity]. eapply one_life; [exact Aq|exact Lb].
      * exists (S r), (S T' + n)%nat. split; [reflexivity|]. split; [|lia]. destruct (rom_sys T') as (x & Hx & Ux).
        eapply (another _ _ _ r _ (boot_arch (fst (sys (S T'))))); [exact Lr|repeat split| | | |exact Aq|exact Lb].
        -- intros y Hy. apply fresh_gp; assumption.
        -- exact (fresh_kept _ x 37 F Hx Ux (or_introl eq_refl)).
        -- exact (fresh_kept _ x 40 F Hx Ux (or_intror eq_refl)).
    + exists T, (S n). split; [lia|]. split. { intros u Hu. destruct (Nat.eq_dec u n) as [->|]; [exact R|apply H; lia]. }
      split; [exact F|]. split; [exact M|]. rewrite Nat.add_0_r. exact Q.
Qed.
End Lives.

(** ** Theorems *)
(** C81, one boot: in every cycle registers and memory together are those of the machine after all the instructions fetched so far,
    or after all but the last one, or the last one is a shift that has been done in part; [mtvec] and [mscratch] are those after all of them or after all but
    the last one. *)
Theorem C81_every_cycle : forall k iw s m, fresh s -> mem_start m ->
  let inp := sys_inp k iw s m in
  forall t, (1 <= t)%nat -> exists o n q, (fetched_before s inp t = n \/ fetched_before s inp t = S n) /\ (fetched_before s inp t = q \/ fetched_before s inp t = S q) /\
  left_behind (fun a => a mod 2 ^ k) o (boot_arch s, fun z => byte (wm_mem m (z / 4)) (z mod 4)) n q (holds (run s inp t) (snd (system k iw s m t))).
Proof. intros k iw s m Hf Hm inp t Ht. exact (every_cycle k iw s m Hf Hm t Ht). Qed.
(** C81: whenever and however often the system is reset, registers, memory, [mtvec] and [mscratch] in any cycle are what one more life than there
    were resets can leave, each life starting with what the one before left. *)
Theorem C81_resets : forall k rw iw s m, fresh s -> mem_start m -> forall t, (1 <= t)%nat ->
  history (fun a => a mod 2 ^ k) (boot_arch s) (fun z => byte (wm_mem m (z / 4)) (z mod 4)) (resets rw t)
    (holds (fst (rsystem k rw iw s m t)) (snd (rsystem k rw iw s m t))).
Proof.
  intros k rw iw s m Hf Hm t Ht. destruct (lives_since k rw iw s m Hf Hm t) as (T & n & -> & H & F & M & Q).
  destruct Q as [(-> & Q)|(r & T' & -> & Lr & Q)]; rewrite Q.
  - destruct (life k rw iw s m 0 n (0 + n) F M H) as (o & j & q & Aq & Lb); [right; split; [reflexivity|lia]|]. eapply one_life; [exact Aq|exact Lb].
  - destruct (rom_sys k rw iw s m Hf T') as (x & Hx & Ux). set (c := fst (rsystem k rw iw s m (S T'))) in *.
    assert (L : exists o j q, adjacent_to j q /\ left_behind (fun a => a mod 2 ^ k) o (boot_arch c, l_mem (holds c (snd (rsystem k rw iw s m (S T'))))) j q (holds (fst (rsystem k rw iw s m (S T' + n))) (snd (rsystem k rw iw s m (S T' + n))))).
    { destruct n as [|n]; [|apply (life k rw iw s m (S T') (S n)); [exact F|exact M|exact H|right; split; [reflexivity|lia]]].
      rewrite Nat.add_0_r. exists (fun _ _ => false), O, O. split; [left; reflexivity|]. split; [|split].
      - eapply whole; [reflexivity| |intros z; reflexivity]. intros y Hy. symmetry. apply fresh_gp; assumption.
      - symmetry. exact (fresh_kept _ x 37 F Hx Ux (or_introl eq_refl)).
      - symmetry. exact (fresh_kept _ x 40 F Hx Ux (or_intror eq_refl)). }
    destruct L as (o & j & q & Aq & Lb). eapply another; [exact Lr| | | | |exact Aq|exact Lb]; [repeat split| | |].
    + intros y Hy. apply fresh_gp; assumption.
    + exact (fresh_kept _ x 37 F Hx Ux (or_introl eq_refl)).
    + exact (fresh_kept _ x 40 F Hx Ux (or_intror eq_refl)).
Qed.

(** ** A program that counts its boots in a register *)
(** addi s1,s1,1; j . *)
Definition counting : list Z := [0x00148493; 0x0000006f].
Definition counting_in (m : Z -> Z) : Prop := forall z, 0 <= z < 8 -> m z = byte (nth (Z.to_nat (z / 4)) counting 0) (z mod 4).
Lemma counting_word m j : counting_in m -> j = 0 \/ j = 1 -> peek (fun a => a mod 2 ^ 8) m (4 * j) 4 = nth (Z.to_nat j) counting 0.
Proof. intros H J. destruct J; subst j; unfold peek; rewrite !H by (vm_compute; split; congruence); vm_compute; reflexivity. Qed.
(** Before the increment ([j] 0) or after it. *)
Record counted (v j : Z) (a : arch) (m : Z -> Z) : Prop := { ct_j : j = 0 \/ j = 1; ct_pc : pc a = 4 * j; ct_mie : mie a = false; ct_x : rd_x a 9 = (v + j) mod 2 ^ 32; ct_code : counting_in m }.
Lemma counted_step v j a m i1 i2 i3 : counted v j a m -> exists j', counted v j' (fst (flat_step (fun a => a mod 2 ^ 8) (a, m) i1 i2 i3)) (snd (flat_step (fun a => a mod 2 ^ 8) (a, m) i1 i2 i3)).
Proof.
  intros [Hj Hpc Hmie Hx Hc]. unfold flat_step, int_enabled. rewrite Hmie, Hpc. cbn [andb]. rewrite (counting_word m j Hc Hj). exists 1. destruct Hj; subst j.
  - change (nth (Z.to_nat 0) counting 0) with 0x00148493. change (decode 0x00148493) with (Some (OpImm ADD 9 9 1)). cbn [is_csr andb exec fst snd].
    constructor; [right; reflexivity| | | |exact Hc].
    + change (next_pc a = 4 * 1). unfold next_pc. rewrite Hpc. reflexivity.
    + exact Hmie.
    + change (rd_x _ 9) with ((rd_x a 9 + 1) mod 2 ^ 32). rewrite Hx. rewrite Z.add_0_r, Zplus_mod_idemp_l. reflexivity.
  - change (nth (Z.to_nat 1) counting 0) with 0x0000006f. change (decode 0x0000006f) with (Some (Jal 0 0)). cbn [is_csr andb exec]. rewrite Hpc.
    unfold jump. change ((4 * 1 + 0) mod 2 ^ 32) with 4. change (4 mod 4 =? 0) with true. cbv iota.
    constructor; [right; reflexivity|reflexivity|exact Hmie|exact Hx|exact Hc].
Qed.
Lemma counted_run v o n a m : counted v 0 a m -> exists j, counted v j (fst (instructions (fun a => a mod 2 ^ 8) o n (a, m))) (snd (instructions (fun a => a mod 2 ^ 8) o n (a, m))).
Proof.
  intros C. induction n as [|n IH]; [exists 0; exact C|]. destruct IH as (j & S). cbn [instructions]. destruct (instructions _ o n (a, m)) as [a' m']. apply (counted_step v j); assumption.
Qed.
Lemma counted_stop v o n a m x m' : counted v 0 a m -> stopped (fun a => a mod 2 ^ 8) o (a, m) n x m' -> counting_in m' /\ exists j, (j = 0 \/ j = 1) /\ x 9 = (v + j) mod 2 ^ 32.
Proof.
  intros C [a1 m1 E Hx Hm|a1 m1 i f rd rs1 amount j E _ D Sh _ _ _].
  - destruct (counted_run v o n a m C) as (j & [Hj _ _ H9 Hc]). rewrite E in *. cbn [fst snd] in *. split; [intros z Hz; rewrite Hm; apply Hc; exact Hz|].
    exists j. split; [exact Hj|]. rewrite Hx by lia. exact H9.
  - exfalso. destruct (counted_run v o n a m C) as (j' & [Hj Hpc _ _ Hc]). rewrite E in *. cbn [fst snd] in *. rewrite Hpc, (counting_word m1 j' Hc Hj) in D.
    destruct Hj; subst j'.
    + change (decode (nth (Z.to_nat 0) counting 0)) with (Some (OpImm ADD 9 9 1)) in D. injection D as <-. discriminate.
    + change (decode (nth (Z.to_nat 1) counting 0)) with (Some (Jal 0 0)) in D. injection D as <-. discriminate.
Qed.
Lemma counted_history a m r l : history (fun a => a mod 2 ^ 8) a m r l -> booted a -> counting_in m -> word (rd_x a 9) ->
  counting_in (l_mem l) /\ exists c, 0 <= c <= Z.of_nat r + 1 /\ l_x l 9 = (rd_x a 9 + c) mod 2 ^ 32.
Proof.
  intros H Ba Hc W. induction H as [o n q l _ (St & _)|r l a' o n q l' H IH Ba' Hx _ _ _ (St & _)].
  - destruct (fun C => counted_stop (rd_x a 9) o n a m _ _ C St) as (C' & j & Hj & E).
    { destruct Ba as (B1 & B2 & _). constructor; auto. rewrite Z.add_0_r, Z.mod_small; [reflexivity|exact W]. }
    split; [exact C'|]. exists j. split; [lia|exact E].
  - destruct IH as (C1 & c & Rc & Ec).
    destruct (fun C => counted_stop (rd_x a 9 + c) o n a' (l_mem l) _ _ C St) as (C' & j & Hj & E).
    { destruct Ba' as (B1 & B2 & _). constructor; auto. rewrite Z.add_0_r, Hx by lia. exact Ec. }
    split; [exact C'|]. exists (c + j). split; [lia|]. rewrite E. f_equal. lia.
Qed.
(** C81, an application: with this program in the memory, however often the system is reset and in whichever cycles, register 9 has in every cycle
    been incremented at most once for each boot. *)
Theorem C81_boot_count : forall rw iw s m, fresh s -> mem_start m -> wm_mem m 0 = 0x00148493 -> wm_mem m 1 = 0x0000006f -> forall t, (1 <= t)%nat ->
  exists c, 0 <= c <= Z.of_nat (resets rw t) + 1 /\ s_mem (fst (rsystem 8 rw iw s m t)) 9 = (s_mem s 9 + c) mod 2 ^ 32.
Proof.
  intros rw iw s m Hf Hm H0 H1 t Ht. pose proof (C81_resets 8 rw iw s m Hf Hm t Ht) as H.
  assert (Hb : rd_x (boot_arch s) 9 = s_mem s 9) by (apply fresh_gp; [exact Hf|lia]).
  apply counted_history in H.
  - destruct H as (_ & c & Rc & E). exists c. split; [exact Rc|]. rewrite Hb in E. exact E.
  - repeat split.
  - intros z Hz. assert (J : z / 4 = 0 \/ z / 4 = 1) by (Z.to_euclidean_division_equations; lia). destruct J as [J|J]; rewrite J; [rewrite H0|rewrite H1]; reflexivity.
  - rewrite Hb. destruct Hf as (u & m' & rd & _ & W). apply W.
Qed.
(** Three boots: the counter reads 1, 2 and 3; a reset that comes before the increment is not counted. *)
Lemma start_of l : Forall word l -> mem_start (commit_mem l).
Proof.
  intros H. constructor; [|unfold word; cbn; lia|reflexivity]. intros a. cbn [commit_mem wm_mem].
  destruct (Nat.le_gt_cases (length l) (Z.to_nat a)) as [L|L]; [rewrite nth_overflow by exact L; unfold word; lia|]. rewrite Forall_forall in H. apply H, nth_In. exact L.
Qed.
Example C81_applies : fresh por /\ mem_start (commit_mem counting) /\
  map (fun t => s_mem (fst (rsystem 8 (fun t => Nat.eqb t 20 || Nat.eqb t 40 || Nat.eqb t 45) (fun _ => false) por (commit_mem counting) t)) 9) [20; 39; 46; 70]%nat = [1; 2; 2; 3] /\
  resets (fun t => Nat.eqb t 20 || Nat.eqb t 40 || Nat.eqb t 45) 70 = 3%nat.
Proof. split; [apply por_fresh|]. split; [apply start_of; repeat constructor; unfold word; lia|vm_compute; auto]. Qed.

(** ** Shifts are not atomic *)
(** addi x1,x1,1; slli x1,x1,4; j . *)
Definition halfway : list Z := [0x00108093; 0x00409093; 0x0000006f].
Definition halfway_in (m : Z -> Z) : Prop := forall z, 0 <= z < 12 -> m z = byte (nth (Z.to_nat (z / 4)) halfway 0) (z mod 4).
Lemma halfway_word m j : halfway_in m -> j = 0 \/ j = 1 \/ j = 2 -> peek (fun a => a mod 2 ^ 8) m (4 * j) 4 = nth (Z.to_nat j) halfway 0.
Proof. intros H J. decompose [or] J; subst j; unfold peek; rewrite !H by (vm_compute; split; congruence); vm_compute; reflexivity. Qed.
Record shifts (j : Z) (a : arch) (m : Z -> Z) : Prop := { sh_j : j = 0 \/ j = 1 \/ j = 2; sh_pc : pc a = 4 * j; sh_mie : mie a = false;
  sh_x : rd_x a 1 = nth (Z.to_nat j) [0; 1; 16] 0; sh_code : halfway_in m }.
Lemma shifts_step j a m i1 i2 i3 : shifts j a m -> exists j', shifts j' (fst (flat_step (fun a => a mod 2 ^ 8) (a, m) i1 i2 i3)) (snd (flat_step (fun a => a mod 2 ^ 8) (a, m) i1 i2 i3)).
Proof.
  intros [Hj Hpc Hmie Hx Hc]. unfold flat_step, int_enabled. rewrite Hmie, Hpc. cbn [andb]. rewrite (halfway_word m j Hc Hj). decompose [or] Hj; subst j.
  - exists 1. change (nth (Z.to_nat 0) halfway 0) with 0x00108093. change (decode 0x00108093) with (Some (OpImm ADD 1 1 1)). cbn [is_csr andb exec fst snd].
    constructor; [right; left; reflexivity| | | |exact Hc].
    + change (next_pc a = 4 * 1). unfold next_pc. rewrite Hpc. reflexivity.
    + exact Hmie.
    + change (rd_x _ 1) with ((rd_x a 1 + 1) mod 2 ^ 32). rewrite Hx. reflexivity.
  - exists 2. change (nth (Z.to_nat 1) halfway 0) with 0x00409093. change (decode 0x00409093) with (Some (OpImm SLL 1 1 4)). cbn [is_csr andb exec fst snd].
    constructor; [right; right; reflexivity| | | |exact Hc].
    + change (next_pc a = 4 * 2). unfold next_pc. rewrite Hpc. reflexivity.
    + exact Hmie.
    + change (rd_x _ 1) with (alu SLL (rd_x a 1) 4). rewrite Hx. reflexivity.
  - exists 2. change (nth (Z.to_nat 2) halfway 0) with 0x0000006f. change (decode 0x0000006f) with (Some (Jal 0 0)). cbn [is_csr andb exec]. rewrite Hpc.
    unfold jump. change ((4 * 2 + 0) mod 2 ^ 32) with 8. change (8 mod 4 =? 0) with true. cbv iota.
    constructor; [right; right; reflexivity|reflexivity|exact Hmie|exact Hx|exact Hc].
Qed.
(** The stronger claim, that registers are always those of a whole number of instructions, is false: from power-on, a reset in cycle 17 finds 2 in x1 and
    leaves it there for the next boot, while after any number of complete instructions, whatever the interrupt line does, x1 is 0, 1 or 16.
    (A reset at the right moment shows the user the intermediate result that the comment at microcode.asm:304-306 says is never seen.) *)
Theorem C81_atomic_refuted : fresh por /\ mem_start (commit_mem halfway) /\
  (let sys := rsystem 8 (fun t => Nat.eqb t 17) (fun _ => false) por (commit_mem halfway) in
   s_mem (fst (sys 17%nat)) 1 = 2 /\ s_mem (fst (sys 18%nat)) 1 = 2 /\ rd_x (boot_arch (fst (sys 18%nat))) 1 = 2 /\ s_mem (fst (sys 29%nat)) 1 = 3) /\
  forall o n, rd_x (fst (instructions (fun a => a mod 2 ^ 8) o n (boot_arch por, fun z => byte (wm_mem (commit_mem halfway) (z / 4)) (z mod 4)))) 1 <> 2.
Proof.
  split; [apply por_fresh|]. split; [apply start_of; repeat constructor; unfold word; lia|]. split; [vm_compute; auto|]. intros o n.
  assert (H : exists j, shifts j (fst (instructions (fun a => a mod 2 ^ 8) o n (boot_arch por, fun z => byte (wm_mem (commit_mem halfway) (z / 4)) (z mod 4))))
    (snd (instructions (fun a => a mod 2 ^ 8) o n (boot_arch por, fun z => byte (wm_mem (commit_mem halfway) (z / 4)) (z mod 4))))).
  { induction n as [|n IH].
    - exists 0. constructor; auto; try reflexivity. intros z Hz. reflexivity.
    - destruct IH as (j & H). cbn [instructions]. destruct (instructions _ o n _) as [a' m']. apply (shifts_step j). exact H. }
  destruct H as (j & [Hj _ _ Hx _]). rewrite Hx. decompose [or] Hj; subst j; discriminate.
Qed.
(** A CSR access that also writes a register is not atomic either: li x5,64; li x6,1; csrrw x6,mscratch,x5; j . has 1 in x6 and 64 in [mscratch] between its two
    writes; this is why the two CSRs have a number of instructions of their own above. *)
Example C81_csr_between : let sys := rsystem 8 (fun _ => false) (fun _ => false) por (commit_mem [0x04000293; 0x00100313; 0x34029373; 0x0000006f]) in
  map (fun t => (s_mem (fst (sys t)) 6, s_mem (fst (sys t)) 40)) [19; 20; 21]%nat = [(1, 0); (1, 64); (0, 64)].
Proof. vm_compute. reflexivity. Qed.

(** ** The program of the repository's reset test *)
(** SELF_MODIFY_AFTER_RESET (test_top.py:645-655): li s1,1; li s2,4; sw s1,0(s2); six nops; followed by a zero word, which is illegal. *)
Definition self_modify : list Z := [0x00100493; 0x00400913; 0x00992023; 0x13; 0x13; 0x13; 0x13; 0x13; 0x13; 0].
(** The same after the store. *)
Definition self_word (stored : bool) (j : Z) : Z := if stored && (j =? 1) then 1 else nth (Z.to_nat j) self_modify 0.
Definition self_in (b : bool) (m : Z -> Z) : Prop := forall z, 0 <= z < 40 -> m z = byte (self_word b (z / 4)) (z mod 4).
Lemma ten j : 0 <= j < 10 -> j = 0 \/ j = 1 \/ j = 2 \/ j = 9 \/ j = 3 \/ j = 4 \/ j = 5 \/ j = 6 \/ j = 7 \/ j = 8.
Proof. lia. Qed.
Lemma self_peek b m j : self_in b m -> 0 <= j < 10 -> peek (fun a => a mod 2 ^ 8) m (4 * j) 4 = self_word b j.
Proof. intros H J. apply ten in J. decompose [or] J; subst j; clear J; destruct b; unfold peek; rewrite !H by (vm_compute; split; congruence); vm_compute; reflexivity. Qed.
Record selfmod (b : bool) (j : Z) (a : arch) (m : Z -> Z) : Prop := { sm_j : 0 <= j < 10; sm_pc : pc a = 4 * j; sm_mie : mie a = false; sm_tvec : mtvec a = 0;
  sm_s1 : 1 <= j -> rd_x a 9 = 1; sm_s2 : 2 <= j -> rd_x a 18 = 4; sm_code : self_in b m }.
Lemma selfmod_step b j a m i1 i2 i3 : selfmod b j a m -> exists b' j', implb b b' = true /\
  selfmod b' j' (fst (flat_step (fun a => a mod 2 ^ 8) (a, m) i1 i2 i3)) (snd (flat_step (fun a => a mod 2 ^ 8) (a, m) i1 i2 i3)).
Proof.
  intros [Hj Hpc Hmie Htv H1 H2 Hc]. unfold flat_step, int_enabled. rewrite Hmie, Hpc. cbn [andb]. rewrite (self_peek b m j Hc Hj).
  assert (Trap : forall c, selfmod b 0 (exception SENTINEL a c) m) by (intros c; constructor; cbn; try lia; try assumption; try reflexivity; rewrite Htv; reflexivity).
  assert (Next : forall a', 0 <= j < 9 -> pc a' = next_pc a -> mie a' = mie a -> mtvec a' = mtvec a -> rd_x a' 9 = 1 -> (1 <= j -> rd_x a' 18 = 4) -> selfmod b (j + 1) a' m).
  { intros a' J P M T X Y. constructor; try assumption; try lia; try congruence; try (intros _; exact X). rewrite P. unfold next_pc. rewrite Hpc, Z.mod_small; lia. }
  pose proof (ten j Hj) as J. decompose [or] J; clear J.
  - subst j. replace (self_word b 0) with 0x00100493 by (destruct b; reflexivity). change (decode 0x00100493) with (Some (OpImm ADD 9 0 1)). cbn [is_csr andb exec fst snd].
    exists b, (0 + 1). split; [destruct b; reflexivity|]. apply Next; try lia; try reflexivity.
  - subst j. unfold self_word. rewrite Z.eqb_refl, andb_true_r. destruct b.
    + change (decode 1) with (@None instr). cbv iota. exists true, 0. split; [reflexivity|]. apply Trap.
    + change (nth (Z.to_nat 1) self_modify 0) with 0x00400913. change (decode 0x00400913) with (Some (OpImm ADD 18 0 4)). cbn [is_csr andb exec fst snd].
      exists false, (1 + 1). split; [reflexivity|]. apply Next; try lia; try reflexivity. change (rd_x _ 9) with (rd_x a 9). apply H1. lia.
  - subst j. replace (self_word b 2) with 0x00992023 by (destruct b; reflexivity). change (decode 0x00992023) with (Some (Store Word 18 9 0)). cbn [is_csr andb].
    rewrite H1, H2 by lia. change ((4 + 0) mod 2 ^ 32) with 4. change (aligned Word 4) with true. cbn [fst snd bytes]. change (Z.to_nat 4) with 4%nat.
    exists true, 3. split; [destruct b; reflexivity|]. assert (St := store_word m 4 1 eq_refl ltac:(lia)). set (m' := poke _ _ _ _ _) in *. clearbody m'.
    constructor; [lia|cbn; unfold next_pc; rewrite Hpc; reflexivity|exact Hmie|exact Htv|intros _; apply H1; lia|intros _; apply H2; lia|].
    intros z Hz. rewrite St. destruct (Z.leb_spec 4 z), (Z.ltb_spec z (4 + 4)); cbn [andb].
    * replace (z / 4) with 1 by (Z.to_euclidean_division_equations; lia). change (self_word true 1) with 1. f_equal. Z.to_euclidean_division_equations; lia.
    * rewrite Hc by lia. unfold self_word. replace (z / 4 =? 1) with false by (symmetry; apply Z.eqb_neq; Z.to_euclidean_division_equations; lia). rewrite !andb_false_r. reflexivity.
    * rewrite Hc by lia. unfold self_word. replace (z / 4 =? 1) with false by (symmetry; apply Z.eqb_neq; Z.to_euclidean_division_equations; lia). rewrite !andb_false_r. reflexivity.
    * lia.
  - subst j. replace (self_word b 9) with 0 by (destruct b; reflexivity). change (decode 0) with (@None instr). cbv iota. exists b, 0. split; [destruct b; reflexivity|]. apply Trap.
  - replace (self_word b j) with 0x13 by (subst j; destruct b; reflexivity). change (decode 0x13) with (Some (OpImm ADD 0 0 0)). cbn [is_csr andb exec fst snd].
    exists b, (j + 1). split; [destruct b; reflexivity|]. apply Next; try lia; try reflexivity; [change (rd_x _ 9) with (rd_x a 9); apply H1; lia|intros _; change (rd_x _ 18) with (rd_x a 18); apply H2; lia].
  - replace (self_word b j) with 0x13 by (subst j; destruct b; reflexivity). change (decode 0x13) with (Some (OpImm ADD 0 0 0)). cbn [is_csr andb exec fst snd].
    exists b, (j + 1). split; [destruct b; reflexivity|]. apply Next; try lia; try reflexivity; [change (rd_x _ 9) with (rd_x a 9); apply H1; lia|intros _; change (rd_x _ 18) with (rd_x a 18); apply H2; lia].
  - replace (self_word b j) with 0x13 by (subst j; destruct b; reflexivity). change (decode 0x13) with (Some (OpImm ADD 0 0 0)). cbn [is_csr andb exec fst snd].
    exists b, (j + 1). split; [destruct b; reflexivity|]. apply Next; try lia; try reflexivity; [change (rd_x _ 9) with (rd_x a 9); apply H1; lia|intros _; change (rd_x _ 18) with (rd_x a 18); apply H2; lia].
  - replace (self_word b j) with 0x13 by (subst j; destruct b; reflexivity). change (decode 0x13) with (Some (OpImm ADD 0 0 0)). cbn [is_csr andb exec fst snd].
    exists b, (j + 1). split; [destruct b; reflexivity|]. apply Next; try lia; try reflexivity; [change (rd_x _ 9) with (rd_x a 9); apply H1; lia|intros _; change (rd_x _ 18) with (rd_x a 18); apply H2; lia].
  - replace (self_word b j) with 0x13 by (subst j; destruct b; reflexivity). change (decode 0x13) with (Some (OpImm ADD 0 0 0)). cbn [is_csr andb exec fst snd].
    exists b, (j + 1). split; [destruct b; reflexivity|]. apply Next; try lia; try reflexivity; [change (rd_x _ 9) with (rd_x a 9); apply H1; lia|intros _; change (rd_x _ 18) with (rd_x a 18); apply H2; lia].
  - replace (self_word b j) with 0x13 by (subst j; destruct b; reflexivity). change (decode 0x13) with (Some (OpImm ADD 0 0 0)). cbn [is_csr andb exec fst snd].
    exists b, (j + 1). split; [destruct b; reflexivity|]. apply Next; try lia; try reflexivity; [change (rd_x _ 9) with (rd_x a 9); apply H1; lia|intros _; change (rd_x _ 18) with (rd_x a 18); apply H2; lia].
Qed.
Lemma selfmod_run b o n a m : selfmod b 0 a m -> exists b' j, selfmod b' j (fst (instructions (fun a => a mod 2 ^ 8) o n (a, m))) (snd (instructions (fun a => a mod 2 ^ 8) o n (a, m))).
Proof.
  intros C. induction n as [|n IH]; [exists b, 0; exact C|]. destruct IH as (b' & j & S). cbn [instructions]. destruct (instructions _ o n (a, m)) as [a' m'].
  destruct (selfmod_step b' j a' m' (o n 1%nat) (o n 2%nat) (o n 3%nat) S) as (b2 & j2 & _ & H). exists b2, j2. exact H.
Qed.
Lemma selfmod_left b o n q a m l : selfmod b 0 a m -> left_behind (fun a => a mod 2 ^ 8) o (a, m) n q l -> l_mtvec l = 0 /\ exists b', self_in b' (l_mem l).
Proof.
  intros C (St & Tv & _). split; [rewrite Tv; destruct (selfmod_run b o q a m C) as (? & ? & H); apply H|].
  destruct (selfmod_run b o n a m C) as (b' & j & H). exists b'.
  destruct St as [a1 m1 E Hx Hm|a1 m1 i f rd rs1 amount k E _ D Sh _ _ Hm]; rewrite E in H; intros z Hz; rewrite Hm; apply H; exact Hz.
Qed.
Lemma selfmod_history a m r l : history (fun a => a mod 2 ^ 8) a m r l -> booted a -> mtvec a = 0 -> self_in false m -> l_mtvec l = 0 /\ exists b, self_in b (l_mem l).
Proof.
  intros H Ba Tv Hc. induction H as [o n q l _ Lb|r l a' o n q l' H IH Ba' _ Tv' _ _ Lb].
  - apply (selfmod_left false o n q a m l); [|exact Lb]. destruct Ba as (B1 & B2 & _). constructor; auto; try lia.
  - destruct IH as (T & b & Cb). apply (selfmod_left b o n q a' (l_mem l) l'); [|exact Lb]. destruct Ba' as (B1 & B2 & _). constructor; auto; try lia; congruence.
Qed.
(** C81, the question left open at test_top.py:658-661: with the SoC's memory, whenever and however often the system is reset while this program runs, the first instruction
    is never overwritten, nor any other word of the program but the one it stores to, and that one only with the value stored. *)
Theorem C81_self_modify : forall rw iw s m, fresh s -> mem_start m -> mtvec (boot_arch s) = 0 -> (forall j, (j < 10)%nat -> wm_mem m (Z.of_nat j) = nth j self_modify 0) ->
  forall t, (1 <= t)%nat -> let w := wm_mem (snd (rsystem 8 rw iw s m t)) in
  w 0 = 0x00100493 /\ (w 1 = 0x00400913 \/ w 1 = 1) /\ w 2 = 0x00992023 /\ forall j, 3 <= j < 9 -> w j = 0x13.
Proof.
  intros rw iw s m Hf Hm Tv Hc t Ht w. pose proof (C81_resets 8 rw iw s m Hf Hm t Ht) as H.
  apply selfmod_history in H; [|repeat split|exact Tv|].
  - destruct H as (_ & b & H). destruct (well 8 rw iw s m Hf Hm t) as (_ & W & _). fold w in W.
    assert (B : forall j, 0 <= j < 10 -> w j = self_word b j).
    { intros j Hj. apply bytes_in; [exact W| |].
      - unfold self_word, word. destruct (b && _); [lia|]. apply ten in Hj. decompose [or] Hj; subst j; vm_compute; split; congruence.
      - intros i Hi. pose proof (H (4 * j + i) ltac:(lia)) as E. cbn [holds l_mem] in E. fold w in E. rewrite E. f_equal; [f_equal|]; Z.to_euclidean_division_equations; lia. }
    rewrite !B by lia. repeat split; try (destruct b; reflexivity).
    + destruct b; [right|left]; reflexivity.
    + intros j Hj. rewrite B by lia. pose proof (ten j ltac:(lia)) as J. decompose [or] J; try lia; subst j; destruct b; reflexivity.
  - intros z Hz. unfold self_word. cbn [andb]. rewrite <- (Z2Nat.id (z / 4)) at 1 by (Z.to_euclidean_division_equations; lia). rewrite Hc; [reflexivity|].
    apply Nat2Z.inj_lt. rewrite Z2Nat.id by (Z.to_euclidean_division_equations; lia). Z.to_euclidean_division_equations; lia.
Qed.
(** From power-on: a reset in the cycle before the request of the store suppresses it, one in the cycle of the request or later does not. *)
Example C81_self_modify_applies : fresh por /\ mem_start (commit_mem self_modify) /\ mtvec (boot_arch por) = 0 /\
  map (fun x => wm_mem (snd (rsystem 8 (fun t => Nat.eqb t x) (fun _ => false) por (commit_mem self_modify) 30)) 1) [18; 19; 20; 99]%nat = [0x00400913; 0x00400913; 1; 1].
Proof. split; [apply por_fresh|]. split; [apply start_of; repeat constructor; unfold word; lia|vm_compute; auto]. Qed.

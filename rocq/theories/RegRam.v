(** * C78: what the core needs of its register RAM

    RegFile's documentation says that the transparency of the register RAM (a read of the
    word being written returns the new value) is "an implementation detail", "I'm not even
    sure I depend on it much", "it might be a net size win if I can make non-transparent
    work" (datapath.py:141-146).  Here the RAM is replaced by one whose read port delivers
    something else in cycles with a write.

    - On a bus that does not answer in the first two cycles of a request, the read port may
      deliver anything after every cycle with a write: even a single-ported RAM will do.
    - With the memory of the example SoC (answers in the second cycle) a RAM that returns
      the old word on a collision makes the core compute wrong results.
    - On any bus whatever, a RAM that delivers anything on a collision is good enough for
      instruction streams in which no instruction's [rs1] field names the destination of
      the instruction before it. *)
From Coq Require Import ZArith Lia Bool List.
From Verif Require Import Bits Ucode Cpu Isa Timed BitLemmas Wf Sym Blocks CsrBlocks DecodeOk Boundary Sim Main Obs PropsBus PropsInv Observe PropsIsa Memory SocMem.
Import ListNotations.
Open Scope Z_scope.

(** ** Specification *)

(** The same state with another value in the output register of the register RAM's read
    port (datapath.py:397). *)
Definition with_rdata (s : state) (x : Z) : state := {|
  s_data_adr := s_data_adr s; s_wdata := s_wdata s; s_mguard := s_mguard s; s_alu := s_alu s; s_a := s_a s; s_b := s_b s;
  s_next := s_next s; s_sguard := s_sguard s; s_u := s_u s;
  s_src_a := s_src_a s; s_src_b := s_src_b s; s_dst := s_dst s; s_imm := s_imm s; s_attr := s_attr s;
  s_map := s_map s; s_exc := s_exc s; s_pc := s_pc s; s_mem := s_mem s; s_rdata := x;
  s_csr := s_csr s; s_cause := s_cause s; s_int := s_int s |}.
(** Address of the read port in this cycle (datapath.py:402, 418; top.py:375-382). *)
Definition read_adr (s : state) (i : input) : Z :=
  rf_raddr (s_u s) (reg_r_adr (s_u s) (i_rs1 (dat_r i)) (s_src_a s) (s_src_b s)) (csr_adr (s_u s) (mp_enc (s_map s))).
(** Address of the write port (datapath.py:403, 422; top.py:384-391). *)
Definition write_adr (s : state) : Z :=
  rf_waddr (s_u s) (reg_w_adr (s_u s) (s_dst s)) (csr_adr (s_u s) (mp_enc (s_map s))).
(** The RAM is written in this cycle (datapath.py:407-425). *)
Definition writes_ram (s : state) : bool := rf_wen (s_u s) (reg_w_adr (s_u s) (s_dst s)) (allow_zero_wr (s_u s)).
(** The RAM is written and read at the same address in this cycle. *)
Definition collides (s : state) (i : input) : bool := writes_ram s && rf_ren (s_u s) && (write_adr s =? read_adr s i).

(** A register RAM's behaviour: [None] is the RAM of the design; [Some x] puts [x] into the
    output register of the read port instead. *)
Definition ram := nat -> state -> input -> option Z.
(** A core with that RAM. *)
Fixpoint ram_run (r : ram) (s : state) (inp : nat -> input) (t : nat) : state :=
  match t with
  | O => s
  | S n => let c := ram_run r s inp n in
           match r n c (inp n) with
           | Some x => with_rdata (step c (inp n)) x
           | None => step c (inp n)
           end
  end.
(** The read port delivers anything after a cycle in which the RAM was written: one port is enough. *)
Definition single_port (x : nat -> Z) : ram := fun t s i => if writes_ram s then Some (x t) else None.
(** The read port delivers anything when it reads the word that is being written. *)
Definition undefined_collision (x : nat -> Z) : ram := fun t s i => if collides s i then Some (x t) else None.
(** It delivers the old word then ("read first"). *)
Definition read_first : ram := fun t s i => if collides s i then Some (s_mem s (read_adr s i)) else None.

(** The slave does not answer in the first two cycles of a request. *)
Definition slow_ack (c : nat -> state) (inp : nat -> input) : Prop :=
  forall t, o_cyc (c t) = true -> ack (inp t) = true ->
    exists t', t = S (S t') /\ o_cyc (c (S t')) = true /\ o_cyc (c t') = true.
(** Everything but the output register of the RAM agrees, and so do the bus signals. *)
Definition indistinguishable (c d : state) : Prop :=
  cpu_bus c = cpu_bus d /\ s_mem c = s_mem d /\ s_pc c = s_pc d /\ s_csr c = s_csr d /\ c = with_rdata d (s_rdata c).
(** No instruction's [rs1] field (bits 15-19) is the nonzero [rd] field (bits 7-11) of the
    instruction fetched just before it. *)
Definition hazard_free (s : state) (inp : nat -> input) : Prop :=
  forall t t' w w', fetch_done s inp t w -> (t < t')%nat -> fetch_done s inp t' w' ->
    (forall u v, (t < u < t')%nat -> ~ fetch_done s inp u v) ->
    bits w 7 5 <> 0 -> bits w' 15 5 <> bits w 7 5.

(** ** Proofs *)
Definition wr (u : uinsn) : bool := match u_csr u with CO_NONE => u_rwrite u | CO_WRITE_CSR => true | _ => false end.
Definition uses (u : uinsn) : bool :=
  (u_latch_a u && match u_a u with A_GP => true | _ => false end) ||
  (u_latch_b u && match u_b u with B_GP | B_CSR => true | _ => false end).
Definition memz (k : Z) (l : list Z) : bool := existsb (Z.eqb k) l.
(** Microinstructions in which the output register may hold a stale value. *)
Definition stale_at : list Z := [0; 2; 3; 4; 5; 58; 62; 63; 92; 93; 97; 98; 102; 103; 181; 182; 243; 244].
Definition epilog (k : Z) : bool := (k =? 181) || (k =? 182).
Definition before : list Z := [83; 84; 85; 86; 87; 88; 156; 180; 209; 210; 211; 212; 213; 214; 215].
Definition mapped_ok (r : Z) : bool := (0 <=? r) && (r <? 256) && negb (epilog r) && negb (memz r before).
Definition next_of (k : Z) (t : bool) : option Z :=
  let u := rom k in
  match u_jmp u with
  | J_CONT => Some ((k + 1) mod 256) | J_MAP => if t then Some (u_target u) else None
  | J_DIRECT => Some (if t then u_target u else (k + 1) mod 256)
  | J_DIRECT_ZERO => Some (if t then u_target u else 0)
  end.
Definition all_k : list Z := map Z.of_nat (seq 0 256).
Definition bools : list bool := [false; true].
Definition check (f : Z -> bool -> bool -> bool -> bool) : bool :=
  forallb (fun k => forallb (fun e => forallb (fun z => forallb (fun a => f k e z a) bools) bools) bools) all_k.
Lemma check_all f k e z a : check f = true -> 0 <= k < 256 -> f k e z a = true.
Proof.
  intros H Hk. unfold check in H. rewrite forallb_forall in H.
  assert (Hi : In k all_k). { unfold all_k. apply in_map_iff. exists (Z.to_nat k). split; [lia|]. apply in_seq. lia. }
  assert (B : forall b, In b bools) by (intros []; cbn; auto).
  specialize (H k Hi). rewrite forallb_forall in H. specialize (H e (B e)). rewrite forallb_forall in H.
  specialize (H z (B z)). rewrite forallb_forall in H. exact (H a (B a)).
Qed.

(** After a write, or with a stale value not replaced, control is at a stale microinstruction. *)
Definition taint_ok (k : Z) (e z a : bool) : bool :=
  if (wr (rom k) && negb (epilog k && a)) || (memz k stale_at && negb (rf_ren (rom k))) then
    match next_of k (test_of (rom k) e z a) with Some j => memz j stale_at | None => false end
  else true.
Lemma taint_table : check taint_ok = true.
Proof. vm_compute. reflexivity. Qed.
Lemma stale_unused : check (fun k _ _ _ => implb (memz k stale_at) (negb (uses (rom k)))) = true.
Proof. vm_compute. reflexivity. Qed.
Lemma pred_table : check (fun k e z a =>
  match next_of k (test_of (rom k) e z a) with
  | Some j => implb (epilog j) (memz k before || negb (u_mreq (rom k))) && implb (memz j before) (negb (u_mreq (rom k)))
  | None => negb (epilog k || memz k before) && negb (u_mreq (rom k)) end) = true.
Proof. vm_compute. reflexivity. Qed.
Lemma fetch_table : check (fun k _ _ _ => implb (u_fetch (rom k)) (u_mreq (rom k)) && implb (epilog k) (u_fetch (rom k) && u_mreq (rom k))) = true.
Proof. vm_compute. reflexivity. Qed.

Record J (k : Z) (s : state) : Prop := {
  j_map : mapped_ok (mp_req (s_map s)) = true; j_enc : 0 <= mp_enc (s_map s);
  j_fetch : u_fetch (s_u s) = true -> s_sguard s = false -> u_mreq (s_u s) = true;
  j_at : (s_sguard s = true /\ s_mguard s = true /\ s_next s = 2 /\ s_dst s = 0 /\ (0 <= k < 256 -> s_u s = rom k)) \/
         (0 <= k < 256 /\ s_u s = rom k /\ s_sguard s = false /\ s_mguard s = false /\ s_next s = (k + 1) mod 256) }.

Lemma mapped_first w c : mapped_ok c = true -> mapped_ok (map_first w c) = true.
Proof.
  intros Hc. unfold map_first. pose proof (bits_range w 12 3 ltac:(lia)) as H3. pose proof (bits_range w 30 1 ltac:(lia)) as H1.
  fold (i_funct3 w) in H3. change (2 ^ 3) with 8 in *. change (2 ^ 1) with 2 in *. change (2 ^ 4) with 16.
  assert (E3 : i_funct3 w = 0 \/ i_funct3 w = 1 \/ i_funct3 w = 2 \/ i_funct3 w = 3 \/ i_funct3 w = 4 \/ i_funct3 w = 5 \/ i_funct3 w = 6 \/ i_funct3 w = 7) by lia.
  assert (E1 : bits w 30 1 = 0 \/ bits w 30 1 = 1) by lia.
  revert E3 E1. generalize (i_funct3 w) (bits w 30 1). intros f b E3 E1.
  assert (F : (f = 0 \/ f = 1 \/ f = 2 \/ f = 3 \/ f = 4 \/ f = 5 \/ f = 6 \/ f = 7) /\ (b = 0 \/ b = 1)) by tauto.
  repeat match goal with |- mapped_ok (if ?x then _ else _) = true => destruct x end; try assumption; try reflexivity;
  destruct F as [F G]; repeat (destruct F as [F|F]; [subst f; destruct G as [G|G]; subst b; reflexivity|]);
  subst f; destruct G as [G|G]; subst b; reflexivity.
Qed.
Lemma mapped_second at' op d r c : mapped_ok c = true -> mapped_ok (map_second at' op d r c) = true.
Proof.
  intros Hc. unfold map_second.
  repeat match goal with |- mapped_ok (if ?x then _ else _) = true => destruct x end; try assumption; reflexivity.
Qed.
Lemma mapped_step s i : mapped_ok (mp_req (s_map s)) = true -> mapped_ok (mp_req (s_map (step s i))) = true.
Proof.
  intros H. unfold step. destruct (rst i); [reflexivity|]. cbn [s_map]. unfold map_next. cbn [mp_req].
  assert (K : mapped_ok (if do_decode s i then map_first (dat_r i) (mp_req (s_map s)) else mp_req (s_map s)) = true).
  { destruct (do_decode s i); [apply mapped_first|]; assumption. }
  destruct (mp_fwd (s_map s)); [apply mapped_second|]; exact K.
Qed.
Lemma mapped_range r : mapped_ok r = true -> 0 <= r < 256 /\ epilog r = false /\ memz r before = false.
Proof. unfold mapped_ok. intros H. apply andb_prop in H. destruct H as [H H4]. apply andb_prop in H. destruct H as [H H3]. apply andb_prop in H. destruct H as [H1 H2].
  apply negb_true_iff in H3, H4. apply Z.leb_le in H1. apply Z.ltb_lt in H2. auto. Qed.
Lemma memz_range k : memz k stale_at = true -> 0 <= k < 256.
Proof.
  unfold memz. intros H. apply existsb_exists in H. destruct H as (x & Hx & E). apply Z.eqb_eq in E. subst x.
  cbn [stale_at In] in Hx. repeat (destruct Hx as [<-|Hx]; [lia|]). contradiction.
Qed.

Lemma step_u s i : s_u (step s i) = rom (seq_now s i).
Proof. unfold step. destruct (rst i); reflexivity. Qed.
Lemma next_now k s i : J k s -> s_sguard s = false ->
  0 <= k < 256 /\ s_u s = rom k /\
  match next_of k (test_of (rom k) (exc_now s i) (s_alu s =? 0) (ack i)) with
  | Some j => seq_now s i = j | None => seq_now s i = mp_req (s_map s) end.
Proof.
  intros Hj G. destruct (j_at _ _ Hj) as [(G' & _)|(Hk & Hu & _ & _ & Hn)]; [congruence|]. split; [assumption|]. split; [assumption|].
  unfold seq_now, seq_adr, next_of, test_now. rewrite G, Hu, Hn. destruct (u_jmp (rom k)); try reflexivity; destruct (test_of _ _ _ _); reflexivity.
Qed.
Lemma seq_range k s i : J k s -> 0 <= seq_now s i < 256.
Proof.
  intros Hj. destruct (s_sguard s) eqn:G.
  - destruct (j_at _ _ Hj) as [(_ & _ & N & _)|(_ & _ & G' & _)]; [|congruence]. unfold seq_now, seq_adr. rewrite G, N. lia.
  - destruct (next_now k s i Hj G) as (Hk & Hu & H). destruct (mapped_range _ (j_map _ _ Hj)) as (Hm & _).
    pose proof (rom_target k) as Ht. unfold inw in Ht. change (2 ^ 8) with 256 in Ht. pose proof (Z.mod_pos_bound (k + 1) 256 ltac:(lia)).
    unfold next_of in H. destruct (u_jmp (rom k)); try (rewrite H; lia); destruct (test_of _ _ _ _); rewrite H; lia.
Qed.
Lemma J_step k s i : J k s -> J (seq_now s i) (step s i).
Proof.
  intros Hj. pose proof (seq_range k s i Hj) as Hr. constructor.
  - apply mapped_step, Hj.
  - pose proof (j_enc _ _ Hj). unfold step. destruct (rst i); [cbn; lia|]. cbn [s_map]. unfold map_next. cbn [mp_enc].
    pose proof (bits_range (dat_r i) 20 3 ltac:(lia)). pose proof (bits_range (dat_r i) 26 1 ltac:(lia)).
    destruct (_ && _); [change (2 ^ 3) with 8 in *|]; lia.
  - rewrite step_u. intros Hf _. pose proof (check_all _ (seq_now s i) true true true fetch_table Hr) as T. cbv beta in T.
    apply andb_prop in T. destruct T as [T _]. rewrite Hf in T. exact T.
  - unfold step. destruct (rst i); [left|right]; cbn [reset_regs s_sguard s_mguard s_next s_u s_dst]; repeat split; lia.
Qed.
Lemma J_fresh s : fresh s -> J (-1) s.
Proof. intros (u & m & rd & -> & _). constructor; [reflexivity|cbn; lia|discriminate|]. left. repeat split. lia. Qed.

Lemma with_same s : with_rdata s (s_rdata s) = s.
Proof. destruct s. reflexivity. Qed.
Lemma with_with s x y : with_rdata (with_rdata s x) y = with_rdata s y.
Proof. reflexivity. Qed.
Lemma step_with s x i : uses (s_u s) = false ->
  step (with_rdata s x) i = with_rdata (step s i) (if rf_ren (s_u s) then s_rdata (step s i) else x).
Proof.
  intros U. unfold uses in U. apply orb_false_elim in U. destruct U as [Ua Ub].
  assert (Ha : forall g g' a b c, asrc_next (s_u s) g a b c = asrc_next (s_u s) g' a b c).
  { intros. unfold asrc_next. destruct (u_latch_a (s_u s)); [|reflexivity]. destruct (u_a (s_u s)); try reflexivity; discriminate. }
  assert (Hb : forall g g' h h' a b c d e m n, bsrc_next (s_u s) g a b c d e h m n = bsrc_next (s_u s) g' a b c d e h' m n).
  { intros. unfold bsrc_next. destruct (u_latch_b (s_u s)); [|reflexivity]. destruct (u_b (s_u s)); try reflexivity; discriminate. }
  unfold step, with_rdata.
  cbn [s_data_adr s_wdata s_mguard s_alu s_a s_b s_next s_sguard s_u s_src_a s_src_b s_dst s_imm s_attr s_map s_exc s_pc s_mem s_rdata s_csr s_cause s_int].
  match goal with |- (if _ then reset_regs (rom ?n) _ _ else _) = _ => change n with (seq_now s i) end.
  match goal with |- context[do_decode ?z i] => change (do_decode z i) with (do_decode s i) end.
  match goal with |- context[mcause_now ?z] => change (mcause_now z) with (mcause_now s) end.
  rewrite (Ha x (s_rdata s)).
  rewrite (Hb x (s_rdata s) (csr_dat_r (s_csr s) x) (csr_dat_r (s_csr s) (s_rdata s))).
  unfold rf_rdata_next. destruct (rf_ren (s_u s)), (rst i); reflexivity.
Qed.

(** ** The two cores side by side *)
Section Pair.
Variables (r : ram) (s : state) (inp : nat -> input).
Hypothesis Hf : fresh s.
Let d := ram_run r s inp.
Let c := run s inp.
Hypothesis Hw : forall t, r t (d t) (inp t) <> None -> writes_ram (d t) = true.

Definition pair_inv (t : nat) (k : Z) : Prop :=
  J k (c t) /\ (exists x, d t = with_rdata (c t) x /\ (x = s_rdata (c t) \/ memz k stale_at = true)).

Lemma wr_writes z : writes_ram z = true -> wr (s_u z) = true.
Proof. unfold writes_ram, rf_wen, wr. destruct (u_csr (s_u z)); intros H; try exact H. apply andb_prop in H. apply H. Qed.
Lemma writes_with z x : writes_ram (with_rdata z x) = writes_ram z.
Proof. reflexivity. Qed.

Lemma pair_step t k : pair_inv t k ->
  (r t (d t) (inp t) <> None -> epilog k = true -> s_sguard (c t) = false -> ack (inp t) = false) ->
  pair_inv (S t) (seq_now (c t) (inp t)).
Proof.
  intros (Hj & x & Hd & Hx) Ha. split; [apply (J_step k); assumption|].
  assert (U : memz k stale_at = true -> uses (s_u (c t)) = false).
  { intros M. pose proof (memz_range _ M) as Hk.
    pose proof (check_all _ k true true true stale_unused Hk) as T. cbv beta in T. rewrite M in T. cbn [implb] in T. apply negb_true_iff in T.
    destruct (j_at _ _ Hj) as [(_ & _ & _ & _ & Hu)|(_ & Hu & _)]; [rewrite (Hu Hk)|rewrite Hu]; assumption. }
  assert (S1 : exists y, step (d t) (inp t) = with_rdata (c (S t)) y /\
     (y = s_rdata (c (S t)) \/ (memz k stale_at = true /\ rf_ren (s_u (c t)) = false))).
  { rewrite Hd. destruct Hx as [->|M].
    - rewrite with_same. exists (s_rdata (c (S t))). split; [symmetry; apply with_same|left; reflexivity].
    - rewrite (step_with _ _ _ (U M)). eexists. split; [reflexivity|]. destruct (rf_ren (s_u (c t))); [left; reflexivity|right; auto]. }
  (* where control goes when the output register is stale afterwards *)
  assert (N : (writes_ram (c t) = true /\ (epilog k = true -> s_sguard (c t) = false -> ack (inp t) = false)) \/
              (memz k stale_at = true /\ rf_ren (s_u (c t)) = false) -> memz (seq_now (c t) (inp t)) stale_at = true).
  { intros H. destruct (s_sguard (c t)) eqn:G.
    - destruct (j_at _ _ Hj) as [(_ & _ & Nx & _)|(_ & _ & G' & _)]; [|congruence]. unfold seq_now, seq_adr. rewrite G, Nx. reflexivity.
    - destruct (next_now k (c t) (inp t) Hj G) as (Hk & Hu & Hn).
      pose proof (check_all _ k (exc_now (c t) (inp t)) (s_alu (c t) =? 0) (ack (inp t)) taint_table Hk) as T. unfold taint_ok in T.
      assert (C : wr (rom k) && negb (epilog k && ack (inp t)) || memz k stale_at && negb (rf_ren (rom k)) = true).
      { destruct H as [[H1 H2]|[H1 H2]].
        - apply wr_writes in H1. rewrite Hu in H1. rewrite H1. destruct (epilog k); [rewrite H2 by reflexivity|]; reflexivity.
        - rewrite H1. rewrite Hu in H2. rewrite H2. apply orb_true_r. }
      rewrite C in T. destruct (next_of _ _); [rewrite Hn; exact T|discriminate]. }
  destruct S1 as (y & S1 & Hy). change (d (S t)) with (match r t (d t) (inp t) with Some x => with_rdata (step (d t) (inp t)) x | None => step (d t) (inp t) end).
  destruct (r t (d t) (inp t)) as [z|] eqn:R.
  - exists z. rewrite S1, with_with. split; [reflexivity|]. right. apply N. left. split.
    + rewrite <- (writes_with (c t) x), <- Hd. apply Hw. congruence.
    + intros E G. apply Ha; [discriminate|assumption|assumption].
  - exists y. split; [assumption|]. destruct Hy as [Hy|Hy]; [left; assumption|right; apply N; right; assumption].
Qed.
Lemma pair_start : pair_inv 0 (-1).
Proof. split; [apply J_fresh; assumption|]. exists (s_rdata s). split; [symmetry; apply with_same|left; reflexivity]. Qed.
Lemma pair_same t k : pair_inv t k -> indistinguishable (d t) (c t).
Proof. intros (_ & x & -> & _). repeat split. Qed.
Lemma pair_bus t k : pair_inv t k -> o_cyc (d t) = o_cyc (c t).
Proof. intros (_ & x & -> & _). reflexivity. Qed.
End Pair.

(** How long the request has been on the bus when control reaches the epilog. *)
Lemma epilog_young k s i k' : J k s -> J k' (step s i) -> k' = seq_now s i -> s_sguard (step s i) = false ->
  (epilog k' = true -> (memz k before = true /\ s_sguard s = false) \/ o_cyc s = false) /\
  (memz k' before = true -> o_cyc s = false).
Proof.
  intros Hj Hj' -> Gs. destruct (s_sguard s) eqn:G.
  - destruct (j_at _ _ Hj) as [(_ & Mg & Nx & _)|(_ & _ & G' & _)]; [|congruence].
    assert (O : o_cyc s = false) by (unfold o_cyc; rewrite Mg; apply andb_false_r). auto.
  - destruct (next_now k s i Hj G) as (Hk & Hu & Hn).
    pose proof (check_all _ k (exc_now s i) (s_alu s =? 0) (ack i) pred_table Hk) as T. cbv beta in T.
    assert (O : u_mreq (rom k) = false -> o_cyc s = false) by (intros E; unfold o_cyc; rewrite Hu, E; reflexivity).
    destruct (next_of _ _) as [j|].
    + subst j. apply andb_prop in T. destruct T as [T1 T2]. split; intros E.
      * rewrite E in T1. cbn [implb] in T1. apply orb_prop in T1. destruct T1 as [T1|T1]; [left; auto|right]. apply negb_true_iff in T1. auto.
      * rewrite E in T2. cbn [implb] in T2. apply negb_true_iff in T2. auto.
    + destruct (mapped_range _ (j_map _ _ Hj)) as (_ & M1 & M2). rewrite Hn. split; congruence.
Qed.

(** A slave that takes its time: the register RAM needs only one port. *)
Theorem C78_single_port : forall s inp x, fresh s ->
  slow_ack (ram_run (single_port x) s inp) inp ->
  forall t, indistinguishable (ram_run (single_port x) s inp t) (run s inp t).
Proof.
  intros s inp x F Sl.
  assert (Hw : forall t, single_port x t (ram_run (single_port x) s inp t) (inp t) <> None -> writes_ram (ram_run (single_port x) s inp t) = true).
  { intros t. unfold single_port at 1. destruct (writes_ram _); congruence. }
  (* [young] says the request on the bus in cycle [t] is in its first two cycles *)
  assert (P : forall t, exists k, pair_inv (single_port x) s inp t k /\
     (epilog k = true -> s_sguard (run s inp t) = false ->
        exists t', t = S t' /\ (o_cyc (run s inp t') = false \/ exists t'', t' = S t'' /\ o_cyc (run s inp t'') = false /\ indistinguishable (ram_run (single_port x) s inp t'') (run s inp t'')) /\ indistinguishable (ram_run (single_port x) s inp t') (run s inp t')) /\
     (memz k before = true -> s_sguard (run s inp t) = false -> exists t', t = S t' /\ o_cyc (run s inp t') = false /\ indistinguishable (ram_run (single_port x) s inp t') (run s inp t'))).
  { induction t as [|t (k & Pi & Ie & Ib)].
    - exists (-1). split; [apply pair_start; assumption|]. split; discriminate.
    - pose proof (pair_same _ _ _ _ _ Pi) as I0.
      assert (A : epilog k = true -> s_sguard (run s inp t) = false -> ack (inp t) = false).
      { intros E G. destruct (ack (inp t)) eqn:K; [exfalso|reflexivity].
        destruct (Ie E G) as (t' & -> & Q & I1).
        assert (O : o_cyc (run s inp (S t')) = true).
        { destruct Pi as (Hj & _). destruct (j_at _ _ Hj) as [(G' & _)|(Hk & Hu & _ & Mg & _)]; [congruence|].
          unfold o_cyc. rewrite Hu, Mg. pose proof (check_all _ k true true true fetch_table Hk) as T. cbv beta in T.
          rewrite E in T. apply andb_prop in T. destruct T as [_ T]. cbn [implb] in T. apply andb_prop in T. destruct T as [_ ->]. reflexivity. }
        destruct (Sl (S t')) as (t'' & Et & O1 & O2); [|exact K|].
        { rewrite (pair_bus _ _ _ _ _ Pi). exact O. }
        injection Et as ->. destruct I1 as (B1 & _). apply (f_equal b_cyc) in B1. cbn [cpu_bus b_cyc] in B1.
        destruct Q as [Q|(t3 & Et & Q & (B2 & _))]; [congruence|]. injection Et as <-. apply (f_equal b_cyc) in B2. cbn [cpu_bus b_cyc] in B2. congruence. }
      exists (seq_now (run s inp t) (inp t)).
      pose proof (pair_step _ _ _ Hw t k Pi (fun _ => A)) as Pn. split; [exact Pn|].
      destruct Pi as (Hj & Hd). destruct Pn as (Hj' & _). change (run s inp (S t)) with (step (run s inp t) (inp t)) in *.
      split.
      + intros E G. destruct (epilog_young k _ _ _ Hj Hj' eq_refl G) as (Q & _). exists t. split; [reflexivity|]. split; [|assumption].
        destruct (Q E) as [(M & G0)|Q1]; [right|left; assumption].
        destruct (Ib M G0) as (t' & -> & ? & ?). exists t'. auto.
      + intros E G. destruct (epilog_young k _ _ _ Hj Hj' eq_refl G) as (_ & Q). exists t. auto. }
  intros t. destruct (P t) as (k & Pi & _). eapply pair_same; exact Pi.
Qed.

(** Where the destination field of the decoder comes from. *)
Definition booting : list Z := [0; 2; 3; 4; 5].
Lemma booting_table : check (fun k e z a => implb (memz k booting)
  (match next_of k (test_of (rom k) e z a) with Some j => memz j booting || ((k =? 0) && a) | None => false end)) = true.
Proof. vm_compute. reflexivity. Qed.
Definition dst_known (s : state) (inp : nat -> input) (t : nat) (k : Z) : Prop :=
  s_dst (run s inp t) = 0 \/
  (exists t1 w, (t1 < t)%nat /\ fetch_done s inp t1 w /\ (forall u v, (t1 < u < t)%nat -> ~ fetch_done s inp u v) /\
                s_dst (run s inp t) = i_rd w) \/
  (memz k booting = true /\ s_sguard (run s inp t) = false).
Lemma dst_step s inp t k : J k (run s inp t) -> dst_known s inp t k -> dst_known s inp (S t) (seq_now (run s inp t) (inp t)).
Proof.
  intros Hj D. set (c := run s inp t). destruct (rst (inp t)) eqn:Hr.
  { left. change (run s inp (S t)) with (step c (inp t)). unfold step. rewrite Hr. reflexivity. }
  assert (Ds : s_dst (run s inp (S t)) = if do_decode c (inp t) then i_rd (dat_r (inp t)) else s_dst c).
  { change (run s inp (S t)) with (step c (inp t)). unfold step. rewrite Hr. reflexivity. }
  assert (Gs : s_sguard (run s inp (S t)) = false).
  { change (run s inp (S t)) with (step c (inp t)). unfold step. rewrite Hr. reflexivity. }
  destruct (s_sguard c) eqn:G.
  { right. right. split; [|assumption]. destruct (j_at _ _ Hj) as [(_ & _ & Nx & _)|(_ & _ & G' & _)]; [|fold c in G'; congruence].
    unfold seq_now, seq_adr. fold c in Nx. rewrite G, Nx. reflexivity. }
  destruct (do_decode c (inp t)) eqn:Dd.
  { right. left. exists t, (dat_r (inp t)). split; [lia|]. split; [|split; [intros; lia|assumption]].
    unfold do_decode in Dd. apply andb_prop in Dd. destruct Dd as [Fe Ak]. unfold fetch_done. fold c.
    destruct (j_at _ _ Hj) as [(G' & _)|(_ & _ & _ & Mg & _)]; [fold c in G'; congruence|]. fold c in Mg.
    pose proof (j_fetch _ _ Hj Fe G) as Mr. fold c in Mr. unfold o_cyc. rewrite Mr, Mg, Fe, Ak. auto. }
  assert (Nf : forall v, ~ fetch_done s inp t v).
  { intros v (_ & Fe & Ak & _). fold c in Fe. unfold do_decode in Dd. rewrite Fe, Ak in Dd. discriminate. }
  destruct D as [D|[(t1 & w & L & Fd & B & D)|(M & _)]].
  - left. rewrite Ds. exact D.
  - right. left. exists t1, w. split; [lia|]. split; [assumption|]. split; [|rewrite Ds; exact D].
    intros u v Hu. destruct (Nat.eq_dec u t) as [->|]; [apply Nf|apply B; lia].
  - right. right. split; [|assumption]. fold c in Hj. destruct (next_now k c (inp t) Hj G) as (Hk & Hu & Hn).
    pose proof (check_all _ k (exc_now c (inp t)) (s_alu c =? 0) (ack (inp t)) booting_table Hk) as T. cbv beta in T. rewrite M in T. cbn [implb] in T.
    destruct (next_of _ _) as [j|]; [|discriminate]. fold c. rewrite Hn. apply orb_prop in T. destruct T as [T|T]; [assumption|exfalso].
    apply andb_prop in T. destruct T as [T1 T2]. apply Z.eqb_eq in T1. subst k. unfold do_decode in Dd. rewrite Hu, T2 in Dd. discriminate.
Qed.

(** Any bus, any reset pattern: a RAM undefined on collisions is enough for hazard-free streams. *)
Theorem C78_hazard_free : forall s inp x, fresh s -> hazard_free s inp ->
  forall t, indistinguishable (ram_run (undefined_collision x) s inp t) (run s inp t).
Proof.
  intros s inp x F Hz.
  set (r := undefined_collision x).
  assert (Hw : forall t, r t (ram_run r s inp t) (inp t) <> None -> writes_ram (ram_run r s inp t) = true).
  { intros t. unfold r at 1, undefined_collision, collides. destruct (writes_ram _); [reflexivity|]. cbn. congruence. }
  assert (P : forall t, exists k, pair_inv r s inp t k /\ dst_known s inp t k).
  { induction t as [|t (k & Pi & D)].
    - exists (-1). split; [apply pair_start; assumption|]. left. destruct F as (u & m & rd & -> & _). reflexivity.
    - exists (seq_now (run s inp t) (inp t)). pose proof Pi as (Hj & _). split; [|apply (dst_step s inp t k); assumption].
      apply (pair_step _ _ _ Hw t k Pi). intros Hn E G.
      destruct (ack (inp t)) eqn:Ak; [exfalso|reflexivity].
      destruct (j_at _ _ Hj) as [(G' & _)|(Hk & Hu & _ & Mg & _)]; [congruence|].
      assert (C : collides (run s inp t) (inp t) = true).
      { destruct Pi as (_ & y & Hd & _). change (r t (ram_run r s inp t) (inp t)) with (if collides (ram_run r s inp t) (inp t) then Some (x t) else None) in Hn.
        rewrite Hd in Hn. change (collides (with_rdata (run s inp t) y) (inp t)) with (collides (run s inp t) (inp t)) in Hn.
        destruct (collides _ _); [reflexivity|congruence]. }
      assert (Fd : fetch_done s inp t (dat_r (inp t))).
      { pose proof (check_all _ k true true true fetch_table Hk) as T. cbv beta in T. rewrite E in T. apply andb_prop in T. destruct T as [_ T].
        cbn [implb] in T. apply andb_prop in T. destruct T as [T1 T2]. unfold fetch_done, o_cyc. rewrite Hu, Mg, T1, T2. auto. }
      unfold collides in C. apply andb_prop in C. destruct C as [C C3]. apply andb_prop in C. destruct C as [C1 _]. apply Z.eqb_eq in C3.
      unfold writes_ram, write_adr, read_adr in *. rewrite Hu in C1, C3.
      assert (E' : k = 181 \/ k = 182). { unfold epilog in E. apply orb_prop in E. destruct E as [E|E]; apply Z.eqb_eq in E; auto. }
      destruct E' as [->| ->].
      + change (rf_wen (rom 181) (reg_w_adr (rom 181) (s_dst (run s inp t))) (allow_zero_wr (rom 181)))
          with (negb (s_dst (run s inp t) =? 0)) in C1.
        change (rf_waddr (rom 181) (reg_w_adr (rom 181) (s_dst (run s inp t))) (csr_adr (rom 181) (mp_enc (s_map (run s inp t)))))
          with (s_dst (run s inp t)) in C3.
        change (rf_raddr (rom 181) (reg_r_adr (rom 181) (i_rs1 (dat_r (inp t))) (s_src_a (run s inp t)) (s_src_b (run s inp t)))
          (csr_adr (rom 181) (mp_enc (s_map (run s inp t))))) with (i_rs1 (dat_r (inp t))) in C3.
        apply negb_true_iff, Z.eqb_neq in C1.
        destruct D as [D|[(t1 & w & L & Fd1 & B & D)|(M & _)]]; [congruence| |discriminate M].
        apply (Hz t1 t w (dat_r (inp t)) Fd1 L Fd B).
        * unfold i_rd in D. congruence.
        * unfold i_rd, i_rs1 in *. congruence.
      + change (rf_waddr (rom 182) (reg_w_adr (rom 182) (s_dst (run s inp t))) (csr_adr (rom 182) (mp_enc (s_map (run s inp t)))))
          with (32 + mp_enc (s_map (run s inp t))) in C3.
        change (rf_raddr (rom 182) (reg_r_adr (rom 182) (i_rs1 (dat_r (inp t))) (s_src_a (run s inp t)) (s_src_b (run s inp t)))
          (csr_adr (rom 182) (mp_enc (s_map (run s inp t))))) with (i_rs1 (dat_r (inp t))) in C3.
        pose proof (j_enc _ _ Hj). pose proof (bits_range (dat_r (inp t)) 15 5 ltac:(lia)) as H5. fold (i_rs1 (dat_r (inp t))) in H5.
        change (2 ^ 5) with 32 in H5. lia. }
  intros t. destruct (P t) as (k & Pi & _). eapply pair_same; exact Pi.
Qed.

(** ** The memory of the example SoC *)

(** The core with register RAM [r], wired to WBMemory as in [system] (SocMem.v, attosoc.py:836-837, 863, 917). *)
Fixpoint ram_system (r : ram) (k : Z) (s : state) (m : wbmem) (t : nat) : state * wbmem :=
  match t with
  | O => (s, m)
  | S n => let (c, d) := ram_system r k s m n in
           let i := cpu_input d false in
           (match r n c i with Some x => with_rdata (step c i) x | None => step c i end, wbmem_step k d (cpu_bus c))
  end.
(** addi x1, x0, 1; addi x1, x1, 1; sw x1, 256(x0); j . *)
Definition dep_prog (a : Z) : Z := nth (Z.to_nat a) [0x00100093; 0x00108093; 0x10102023; 0x0000006f] 0.
Definition dep_mem : wbmem := {| wm_mem := dep_prog; wm_rdata := 0; wm_ack := false |}.
(** From power-on, with the memory the SoC has: the machine of the design stores 2, as a
    RISC-V machine does; with a read-first register RAM the core stores 1. *)
Theorem C78_needs_transparency :
  mem_start dep_mem /\
  (forall t, ram_system (fun _ _ _ => None) 10 por dep_mem t = system 10 (fun _ => false) por dep_mem t) /\
  (exists t, wm_mem (snd (system 10 (fun _ => false) por dep_mem t)) 64 = 2) /\
  (exists t, let (c, m) := ram_system read_first 10 por dep_mem t in
     wm_ack m = true /\ o_cyc c = true /\ o_we c = true /\ o_adr c = 64 /\ o_dat_w c = 1 /\ wm_mem m 64 = 1) /\
  (let bytes z := byte (dep_prog (z / 4)) (z mod 4) in
   let st am := flat_step (fun a => a) am false false false in
   peek (fun a => a) (snd (st (st (st (boot_arch por, bytes))))) 256 4 = 2).
Proof.
  split.
  { constructor; [|cbn; unfold word; lia|reflexivity]. intros a. cbn [dep_mem wm_mem]. unfold dep_prog.
    destruct (Z.to_nat a) as [|[|[|[|n]]]]; cbn [nth]; unfold word; try lia. destruct n; cbn; lia. }
  split. { induction t as [|t IH]; [reflexivity|]. cbn [ram_system system]. rewrite IH. reflexivity. }
  split. { exists 30%nat. vm_compute. reflexivity. }
  split; [|vm_compute; reflexivity].
  exists 21%nat. vm_compute. auto 10.
Qed.

(** ** Cases that meet the hypotheses *)

(** A slave that answers in the third cycle of a request, in front of a ROM. *)
Fixpoint slow_run (r : ram) (m : Z -> Z) (s : state) (t : nat) : state * bool * bool :=
  match t with
  | O => (s, false, false)
  | S n => let '(c, p, q) := slow_run r m s n in
           let i := {| rst := false; ack := o_cyc c && p && q; dat_r := m (o_adr c); irq := false |} in
           (match r n c i with Some x => with_rdata (step c i) x | None => step c i end, o_cyc c, p)
  end.
Definition slow_inp (r : ram) (m : Z -> Z) (s : state) (t : nat) : input :=
  let '(c, p, q) := slow_run r m s t in {| rst := false; ack := o_cyc c && p && q; dat_r := m (o_adr c); irq := false |}.
Lemma slow_ram r m s t : ram_run r s (slow_inp r m s) t = fst (fst (slow_run r m s t)).
Proof.
  induction t as [|t IH]; [reflexivity|]. cbn [ram_run slow_run]. rewrite IH. unfold slow_inp.
  destruct (slow_run r m s t) as [[c p] q]. reflexivity.
Qed.
Lemma slow_hist r m s t : snd (fst (slow_run r m s (S t))) = o_cyc (fst (fst (slow_run r m s t))) /\
  snd (slow_run r m s (S (S t))) = o_cyc (fst (fst (slow_run r m s t))).
Proof.
  assert (A : snd (fst (slow_run r m s (S t))) = o_cyc (fst (fst (slow_run r m s t)))).
  { cbn [slow_run]. destruct (slow_run r m s t) as [[c p] q]. reflexivity. }
  split; [exact A|]. rewrite <- A. generalize (S t). intros n. cbn [slow_run]. destruct (slow_run r m s n) as [[c p] q]. reflexivity.
Qed.
Definition junk (t : nat) : Z := 0xdeadbeef.
Example C78_single_port_applies :
  let r := single_port junk in let inp := slow_inp r dep_prog por in
  fresh por /\ slow_ack (ram_run r por inp) inp /\
  (* the garbage really is in the read port, where the design has something else... *)
  (exists t, s_rdata (ram_run r por inp t) = 0xdeadbeef /\ s_rdata (run por inp t) <> 0xdeadbeef) /\
  (* ...and yet the store is right *)
  (exists t, o_cyc (ram_run r por inp t) = true /\ o_we (ram_run r por inp t) = true /\ ack (inp t) = true /\
     o_adr (ram_run r por inp t) = 64 /\ o_dat_w (ram_run r por inp t) = 2).
Proof.
  cbv zeta. split; [apply por_fresh|]. split; [|split].
  - intros t C A. unfold slow_inp in A. rewrite slow_ram in C.
    destruct t as [|[|t]]; [discriminate A| |].
    + exfalso. revert A. vm_compute. discriminate.
    + exists t. split; [reflexivity|]. rewrite !slow_ram.
      destruct (slow_hist (single_port junk) dep_prog por (S t)) as (H1 & _).
      destruct (slow_hist (single_port junk) dep_prog por t) as (_ & H2).
      rewrite <- H1, <- H2. destruct (slow_run _ _ _ (S (S t))) as [[c p] q]. cbn [fst snd ack] in *.
      apply andb_prop in A. destruct A as [A Q]. apply andb_prop in A. destruct A as [_ P]. auto.
  - exists 12%nat. vm_compute. split; [reflexivity|discriminate].
  - exists 25%nat. vm_compute. auto 10.
Qed.

(** addi x1, x1, 1; addi x2, x0, 2; sw x1, 256(x0), each acknowledged in the third cycle,
    the bus holding the last word in between. *)
Definition free_inp (t : nat) : input :=
  {| rst := false; ack := existsb (Nat.eqb t) [7; 12; 17; 25]%nat;
     dat_r := if (t <? 12)%nat then 0x00108093 else if (t <? 17)%nat then 0x00200113 else 0x10102023; irq := false |}.
Example C78_hazard_free_applies :
  let r := undefined_collision junk in
  fresh por /\ hazard_free por free_inp /\
  fetch_done por free_inp 7 0x00108093 /\ fetch_done por free_inp 12 0x00200113 /\ fetch_done por free_inp 17 0x10102023 /\
  (exists t, collides (ram_run r por free_inp t) (free_inp t) = true) /\
  (exists t, s_rdata (ram_run r por free_inp t) = 0xdeadbeef /\ s_rdata (run por free_inp t) <> 0xdeadbeef) /\
  (exists t, o_cyc (ram_run r por free_inp t) = true /\ o_we (ram_run r por free_inp t) = true /\ ack (free_inp t) = true /\
     o_adr (ram_run r por free_inp t) = 64 /\ o_dat_w (ram_run r por free_inp t) = 1).
Proof.
  cbv zeta. split; [apply por_fresh|]. split.
  { assert (W : forall t w, fetch_done por free_inp t w -> (t = 7%nat /\ w = 0x00108093) \/ (t = 12%nat /\ w = 0x00200113) \/ (t = 17%nat /\ w = 0x10102023)).
    { intros t w (_ & Fe & A & D). cbn [free_inp ack] in A. apply existsb_exists in A. destruct A as (u & Hu & E). apply Nat.eqb_eq in E. subst u.
      cbn [In] in Hu. destruct Hu as [<-|[<-|[<-|[<-|[]]]]].
      - left. auto. - right; left; auto. - right; right; auto. - exfalso. revert Fe. vm_compute. discriminate. }
    intros t t' w w' F1 L F2 _ _.
    destruct (W _ _ F1) as [(-> & ->)|[(-> & ->)|(-> & ->)]]; destruct (W _ _ F2) as [(-> & ->)|[(-> & ->)|(-> & ->)]];
      try lia; vm_compute; discriminate. }
  split; [vm_compute; auto|]. split; [vm_compute; auto|]. split; [vm_compute; auto|].
  split; [exists 11%nat; vm_compute; reflexivity|]. split; [exists 12%nat; vm_compute; split; [reflexivity|discriminate]|].
  exists 25%nat. vm_compute. auto 10.
Qed.

(** * Reset and invariants that hold whatever the bus does: C03, C04, C09, C34 *)
From Coq Require Import ZArith Lia Bool List.
From Verif Require Import Bits Ucode Cpu Isa Timed BitLemmas Wf Sym Blocks CsrBlocks DecodeOk Boundary Sim Main.
Import ListNotations.
Open Scope Z_scope.

(** ** Runs *)
Lemma run_add s inp n m : run s inp (n + m) = run (run s inp n) (fun t => inp (n + t)%nat) m.
Proof. induction m as [|m IH]; [rewrite Nat.add_0_r; reflexivity|]. rewrite Nat.add_succ_r. cbn [run]. rewrite IH. reflexivity. Qed.

Lemma run_wf s inp t : wf s -> (forall t, word (dat_r (inp t))) -> wf (run s inp t).
Proof. intros W H. induction t; [assumption|]. cbn [run]. apply wf_step; auto. Qed.

Lemma settles_run inp P s0 n : forall t s, settles inp P n t s -> s = run s0 inp t ->
  (forall u, (t <= u < t + n)%nat -> rst (inp u) = false) ->
  (forall u, (t <= u < t + n)%nat -> idle (run s0 inp u)) /\ P (run s0 inp (t + n)).
Proof.
  induction n as [|n IH]; intros t s H E Hr.
  - inversion H; subst. rewrite Nat.add_0_r. split; [intros; lia|assumption].
  - inversion H as [|n' t' s' I H']; subst.
    destruct (IH (S t) _ H') as [A B].
    + cbn [run]. rewrite step_nst by (apply Hr; lia). reflexivity.
    + intros u Hu. apply Hr. lia.
    + split.
      * intros u Hu. destruct (Nat.eq_dec u t) as [->|]; [assumption|]. apply A. lia.
      * replace (t + S n)%nat with (S t + n)%nat by lia. exact B.
Qed.

(** ** The reset routine *)
Lemma reset_settles inp s t a : at_ 2 s -> rd_x a 0 = 0 -> pc a = 0 -> mcause a = 0 ->
  (forall r, 1 <= r < 32 -> rd_x a r = s_mem s r) -> mtvec a = s_mem s 37 -> mscratch a = s_mem s 40 -> mepc a = s_mem s 41 ->
  mie a = c_mie (s_csr s) -> mpie a = c_mpie (s_csr s) -> meie a = c_meie (s_csr s) -> c_mpp (s_csr s) = 3 -> took_int a = s_int s ->
  settles inp (fun s => at_ 0 s /\ rel a s) 4 t s.
Proof.
  intros (A1&A2&A3&A4) H0 Hp Hc Hx H1 H2 H3 H4 H5 H6 H7 H8.
  explode s. proj. subst nx u mg sg. vmchange (rom 2).
  stp. stp. stp. stp. apply settles_now. split; [repeat split|].
  unfold rel. proj.
  constructor; try assumption.
  - intros r Hr. unfold upd. destruct (Z.eqb_spec r 42); [lia|]. destruct (Z.eqb_spec r 0) as [->|]; [exact H0|]. apply Hx. lia.
Qed.

Lemma fresh_five s inp : fresh s -> (forall t, (t < 5)%nat -> rst (inp t) = false) ->
  (forall t, (t < 5)%nat -> o_cyc (run s inp t) = false /\ o_stb (run s inp t) = false) /\
  at_ 0 (run s inp 5) /\ rel (boot_arch s) (run s inp 5).
Proof.
  intros F Hr. pose proof (stale s (ack (inp 0%nat)) (dat_r (inp 0%nat)) (irq (inp 0%nat)) F) as P. cbv zeta in P.
  destruct P as (C0 & B0 & A & P1 & P2 & P3 & P4 & Pm & Pp & Hx & Hm).
  assert (E1 : nst s (ack (inp 0%nat)) (dat_r (inp 0%nat)) (irq (inp 0%nat)) = run s inp 1).
  { cbn [run]. rewrite step_nst by (apply Hr; lia). reflexivity. }
  assert (St : settles inp (fun s' => at_ 0 s' /\ rel (boot_arch s) s') 4 1 (run s inp 1)).
  { rewrite <- E1. apply reset_settles; try assumption; cbn [boot_arch pc mie mpie meie mtvec mscratch mepc mcause took_int]; try rewrite Pm; try reflexivity; try congruence.
    intros r Hr'. unfold rd_x. destruct (Z.eqb_spec r 0); [lia|]. reflexivity. }
  destruct (settles_run _ _ s _ _ _ St eq_refl) as [I Q]; [intros; apply Hr; lia|].
  split; [|exact Q]. intros [|t] Ht; [exact (conj C0 B0)|].
  destruct (idle_quiet _ (I (S t) ltac:(lia))). split; assumption.
Qed.

(** C03.  [s] is any state at all in which each register holds a value of its width;
    only the last cycle of the reset pulse matters. *)
Theorem C03_reset_from_any_state : forall s inp T,
  wf s -> (forall t, word (dat_r (inp t))) ->
  rst (inp T) = true -> (forall j, (j < 5)%nat -> rst (inp (T + 1 + j)%nat) = false) ->
  (forall j, (j < 5)%nat -> o_cyc (run s inp (T + 1 + j)) = false /\ o_stb (run s inp (T + 1 + j)) = false) /\
  let x := run s inp (T + 6) in
  o_cyc x = true /\ o_stb x = true /\ o_adr x = 0 /\ o_sel x = 15 /\ o_we x = false /\
  s_pc x = 0 /\ s_mem x 0 = 0 /\ c_mie (s_csr x) = false /\ c_meie (s_csr x) = false /\ s_mem x 42 = 0 /\
  (forall r, 1 <= r < 32 -> s_mem x r = s_mem (run s inp (T + 1)) r).
Proof.
  intros s inp T W Hw Hr Hn.
  assert (F : fresh (run s inp (T + 1))).
  { rewrite Nat.add_1_r. cbn [run]. apply step_reset_fresh; [apply run_wf; assumption|apply Hw|assumption]. }
  destruct (fresh_five _ (fun t => inp (T + 1 + t)%nat) F) as (Q & A & R); [assumption|].
  assert (E : forall j, run s inp (T + 1 + j) = run (run s inp (T + 1)) (fun t => inp (T + 1 + t)%nat) j) by (intros; apply run_add).
  split; [intros j Hj; rewrite E; apply Q; assumption|].
  cbv zeta. replace (T + 6)%nat with (T + 1 + 5)%nat by lia. rewrite E. revert A R. generalize (run (run s inp (T + 1)) (fun t => inp (T + 1 + t)%nat) 5).
  intros x A R. pose proof (boot_boot _ F) as B.
  pose proof (fetch_shows 0 (boot_arch (run s inp (T + 1))) x eq_refl eq_refl eq_refl A (r_pc _ _ _ _ _ _ _ _ R)) as S0.
  destruct R, B, S0. cbn [request q_adr q_sel q_we] in *.
  split; [assumption|]. split; [assumption|]. split; [rewrite sh_adr, bo_pc; reflexivity|]. split; [assumption|]. split; [assumption|].
  split; [lia|]. split; [rewrite <- r_x by lia; assumption|]. split; [congruence|]. split; [congruence|]. split; [congruence|].
  intros r Hr'. rewrite <- r_x by lia. apply bo_x. assumption.
Qed.

(** ** An invariant of the sequencer under any bus behaviour *)
Definition next_of (k : Z) (b : bool) : option Z :=
  match u_jmp (rom k) with
  | J_CONT => Some (k + 1)
  | J_MAP => None
  | J_DIRECT => Some (if b then u_target (rom k) else k + 1)
  | J_DIRECT_ZERO => Some (if b then u_target (rom k) else 0)
  end.
Definition is_valid_test (c : cond_test) : bool := match c with C_MEM_VALID => true | _ => false end.
Definition in_reset (k : Z) : bool := (2 <=? k) && (k <=? 5).
Definition next_ok (k : Z) (b : bool) : bool :=
  match next_of k b with
  | None => (k =? 1) || (k =? 36)
  | Some n => live n && negb (n =? 36) && negb (k =? 1) && negb (k =? 36) && (n <? 256) && (0 <=? n)
              && (negb (n =? 1) || (u_fetch (rom k) && is_valid_test (u_cond (rom k)) && xorb b (u_inv (rom k))))
              && (negb (in_reset n) || in_reset k)
  end.
(** Test outcomes that can occur. *)
Definition possible (k : Z) (b : bool) : bool := match u_cond (rom k) with C_TRUE => xorb b (u_inv (rom k)) | _ => true end.
Lemma next_table : forallb (fun k => (negb (possible k true) || next_ok k true) && (negb (possible k false) || next_ok k false)) live_list = true.
Proof. vm_compute. reflexivity. Qed.
Lemma next_sound k b : live k = true -> possible k b = true -> next_ok k b = true.
Proof.
  intros L Pb. unfold live in L. apply existsb_exists in L. destruct L as (k' & Hk & E). apply Z.eqb_eq in E. subst k'.
  pose proof next_table as H. rewrite forallb_forall in H. specialize (H k Hk). apply andb_prop in H. destruct b; rewrite Pb in H; cbn [negb orb] in H; tauto.
Qed.
Lemma live_range k : live k = true -> 0 <= k < 254.
Proof.
  intros L. unfold live in L. apply existsb_exists in L. destruct L as (k' & Hk & E). apply Z.eqb_eq in E. subst k'.
  assert (H : forallb (fun k => (0 <=? k) && (k <? 254)) live_list = true) by (vm_compute; reflexivity).
  rewrite forallb_forall in H. specialize (H k Hk). apply andb_prop in H. destruct H. apply Z.leb_le in H. apply Z.ltb_lt in H0. lia.
Qed.

Definition csr_ops : list Z := [1; 2; 3; 5; 6; 7].
(** The microcode entry points of instructions, without the CSR trampoline. *)
Definition entry_ok (r : Z) : bool := live r && negb (r =? 36) && negb (r =? 1) && negb (in_reset r).
Definition csr_entries : list Z := [0x25; 0x26; 0x27; 0x28; 0x29; 0x2a; 0x2b; 0x2c; 0x2d; 0x2e].

Record seq_inv (k : Z) (s : state) : Prop := {
  si_at : at_ k s; si_live : live k = true;
  si_fwd : mp_fwd (s_map s) = ex_fwd (s_exc s);
  si_op : mp_fwd (s_map s) = true -> In (mp_op (s_map s)) csr_ops;
  si_1 : k = 1 -> ex_valid (s_exc s) = false ->
         entry_ok (mp_req (s_map s)) = true \/ (mp_req (s_map s) = 36 /\ mp_fwd (s_map s) = true);
  si_36 : k = 36 -> ex_valid (s_exc s) = false -> In (mp_req (s_map s)) csr_entries }.

Lemma map_second_in at' op dst src cur : ill at' = false -> In op csr_ops -> In (map_second at' op dst src cur) csr_entries.
Proof.
  intros I H. unfold map_second. rewrite I. destruct (ro0 at'); [cbn; tauto|].
  unfold csr_ops in H. cbn [In] in H. repeat (destruct H as [<-|H]; [cmps; destruct (dst =? 0), (src =? 0); cbn; tauto|]). contradiction.
Qed.
Lemma is_csr_same w : map_is_csr w = exc_is_csr w.
Proof.
  unfold map_is_csr, exc_is_csr, i_funct3. destruct (i_opcode w =? SYSTEM); [|reflexivity]. cbn [andb].
  destruct (Z.eqb_spec (bits w 7 25) (INSN_ECALL / 2 ^ 7)) as [E|E].
  - assert (F : bits w 12 3 = 0).
    { change (INSN_ECALL / 2 ^ 7) with 0 in E. change bits with fld in *.
      change 25 with (5 + 20) in E. rewrite (fld_split w 7 5 20) in E by lia. change (7 + 5) with 12 in E.
      change 20 with (3 + 17) in E. rewrite (fld_split w 12 3 17) in E by lia.
      pose proof (fld_range w 7 5 ltac:(lia)). pose proof (fld_range w 12 3 ltac:(lia)). pose proof (fld_range w (12 + 3) 17 ltac:(lia)). lia. }
    rewrite F. cbn. rewrite !andb_false_r. reflexivity.
  - cbn [negb andb]. destruct (Z.eqb_spec w INSN_EBREAK) as [->|]; [reflexivity|]. cbn [negb andb]. reflexivity.
Qed.
Lemma map_is_csr_op w : map_is_csr w = true -> In (i_funct3 w) csr_ops.
Proof.
  unfold map_is_csr. intros H. apply andb_prop in H. destruct H as [H H4]. apply andb_prop in H. destruct H as [_ H0].
  apply negb_true_iff in H4, H0. apply Z.eqb_neq in H4, H0. unfold i_funct3 in *. pose proof (bits_range w 12 3 ltac:(lia)).
  change (2 ^ 3) with 8 in *. assert (E : bits w 12 3 = 1 \/ bits w 12 3 = 2 \/ bits w 12 3 = 3 \/ bits w 12 3 = 5 \/ bits w 12 3 = 6 \/ bits w 12 3 = 7) by lia.
  unfold csr_ops. cbn [In]. intuition.
Qed.
Lemma entry_live i : is_csr i = false -> i <> Ecall -> i <> Ebreak -> entry_ok (entry i) = true.
Proof.
  intros Hc H1 H2. destruct i as [| | | |[]|[] []|[]|[]|[]| | | | | |]; try reflexivity; try congruence; discriminate.
Qed.

Lemma first_decode w c : word w -> exc_first w = false ->
  entry_ok (map_first w c) = true \/ (map_first w c = 36 /\ map_is_csr w = true).
Proof.
  intros Hw H. destruct (decode w) as [i|] eqn:D.
  2:{ destruct (decode_none w Hw D). congruence. }
  destruct (is_csr i) eqn:Ci.
  { destruct i; try discriminate. destruct (decode_csr w f rd arg csr c D) as (_ & ? & _ & ? & _). right. auto. }
  left. destruct i eqn:Ei;
    try (destruct (decode_some w i c c) as (_ & _ & _ & E & Ft); [subst; assumption|subst; reflexivity|subst; discriminate|subst; discriminate|];
         subst i; rewrite E; apply entry_live; try discriminate; reflexivity).
  - apply decode_ecall in D. subst w. discriminate H.
  - apply decode_ebreak in D. subst w. discriminate H.
  - discriminate Ci.
Qed.

Lemma at_next k s i n : at_ k s -> rst i = false -> seq_now s i = n -> 0 <= n < 255 -> at_ n (step s i).
Proof.
  intros (A1&A2&A3&A4) Hr E Hn. unfold step. rewrite Hr, E. repeat split. cbn [s_next]. apply Z.mod_small. lia.
Qed.

Lemma seq_inv_step k s i : seq_inv k s -> rst i = false -> word (dat_r i) ->
  exists k', seq_inv k' (step s i) /\ (in_reset k' = true -> in_reset k = true).
Proof.
  intros [A L Fw Op I1 I36] Hr Hd. pose proof A as (A1&A2&A3&A4). pose proof (live_range k L) as Rk.
  assert (Fw' : mp_fwd (s_map (step s i)) = ex_fwd (s_exc (step s i))).
  { unfold step. rewrite Hr. cbn [s_map s_exc map_next exc_next mp_fwd ex_fwd]. rewrite is_csr_same. reflexivity. }
  assert (Op' : mp_fwd (s_map (step s i)) = true -> In (mp_op (s_map (step s i))) csr_ops).
  { unfold step. rewrite Hr. cbn [s_map map_next mp_fwd mp_op]. intros H. apply andb_prop in H. apply map_is_csr_op. tauto. }
  assert (Sec : mp_fwd (s_map s) = true -> ex_valid (s_exc (step s i)) = false -> In (mp_req (s_map (step s i))) csr_entries).
  { intros F. unfold step. rewrite Hr. cbn [s_exc s_map exc_next map_next ex_valid mp_req]. rewrite F. rewrite Fw in F. rewrite F.
    intros V. apply map_second_in; [|apply Op; congruence]. unfold exc_second in V. destruct (ill (s_attr s)); [discriminate|reflexivity]. }
  assert (En : forall r, In r csr_entries -> entry_ok r = true /\ 0 <= r < 255 /\ in_reset r = false).
  { intros r H. unfold csr_entries in H. cbn [In] in H. repeat (destruct H as [<-|H]; [repeat split; try reflexivity; lia|]). contradiction. }
  assert (Ex : k = 1 \/ k = 36 -> exc_now s i = false -> ex_valid (s_exc s) = false).
  { intros H. unfold exc_now, exception_of. rewrite A1. destruct H; subst k;
    match goal with |- context[rom ?k] => vmchange (rom k) end; cbn [u_exc]; destruct (ex_valid (s_exc s)); auto. }
  assert (Pb : possible k (test_now s i) = true).
  { unfold possible, test_now, test_of. rewrite A1. destruct (u_cond (rom k)); try reflexivity. destruct (u_inv (rom k)); reflexivity. }
  destruct (next_of k (test_now s i)) as [n|] eqn:N.
  - (* ordinary *)
    pose proof (next_sound k (test_now s i) L Pb) as K. unfold next_ok in K. rewrite N in K.
    repeat (apply andb_prop in K; destruct K as [K ?]).
    apply negb_true_iff in H3, H4, H5. apply Z.eqb_neq in H3, H4, H5. apply Z.ltb_lt in H2. apply Z.leb_le in H1.
    assert (E : seq_now s i = n).
    { unfold seq_now, seq_adr. rewrite A4. unfold next_of in N. rewrite A1, A2.
      destruct (u_jmp (rom k)); congruence. }
    assert (A' : at_ n (step s i)).
    { apply (at_next k); try assumption. pose proof (live_range n K). lia. }
    exists n. split; [|intros X; rewrite X in H; exact H].
    constructor; try assumption.
    + intros -> V. change (1 =? 1) with true in H0. cbn [negb orb] in H0. apply andb_prop in H0. destruct H0 as [H0 Hx]. apply andb_prop in H0. destruct H0 as [Hf Hc].
      destruct (mp_fwd (s_map s)) eqn:F.
      { left. apply En. apply Sec; auto. }
      assert (St : do_decode s i = true).
      { unfold do_decode. rewrite A1, Hf. revert Hx. unfold test_now, test_of. rewrite A1.
        destruct (u_cond (rom k)); try discriminate Hc. destruct (u_inv (rom k)), (ack i); cbn; congruence. }
      revert V. unfold step. rewrite Hr, St. cbn [s_exc s_map exc_next map_next ex_valid mp_req mp_fwd]. rewrite F, <- Fw. cbn [andb].
      intros V. apply first_decode; assumption.
    + intros ->. congruence.
  - (* map *)
    pose proof (next_sound k (test_now s i) L Pb) as K. unfold next_ok in K. rewrite N in K. apply orb_prop in K.
    assert (Hk : k = 1 \/ k = 36) by (destruct K as [K|K]; apply Z.eqb_eq in K; auto).
    specialize (Ex Hk).
    assert (T : seq_now s i = if exc_now s i then 240 else mp_req (s_map s)).
    { unfold seq_now, seq_adr. rewrite A4, A1. unfold test_now, test_of. rewrite A1.
      destruct Hk; subst k; match goal with |- context[rom ?k] => vmchange (rom k) end; cbn [u_jmp u_cond u_inv u_target]; destruct (exc_now s i); reflexivity. }
    destruct (exc_now s i) eqn:X.
    { exists 240. split; [|discriminate]. constructor; try assumption; try (intros; lia); try reflexivity.
      apply (at_next k); try assumption. lia. }
    specialize (Ex eq_refl).
    assert (G : entry_ok (mp_req (s_map s)) = true \/ (k = 1 /\ mp_req (s_map s) = 36 /\ mp_fwd (s_map s) = true)).
    { destruct Hk as [Hk|Hk].
      - destruct (I1 Hk Ex) as [?|[? ?]]; tauto.
      - left. apply En. apply I36; assumption. }
    destruct G as [G|(-> & G1 & G2)].
    + unfold entry_ok in G. repeat (apply andb_prop in G; destruct G as [G ?]).
      apply negb_true_iff in H, H0, H1. apply Z.eqb_neq in H0, H1.
      exists (mp_req (s_map s)). split; [|congruence].
      constructor; try assumption; try (intros; congruence).
      apply (at_next k); try assumption. pose proof (live_range _ G). lia.
    + rewrite G1 in T. exists 36. split; [|discriminate]. constructor; try assumption; try (intros; lia); try reflexivity.
      * apply (at_next 1); try assumption.
      * intros _. apply Sec. assumption.
Qed.

Lemma seq_inv_run s inp : fresh s -> env inp ->
  (forall t, exists k, seq_inv k (run s inp (S t))) /\
  (forall t, exists k, seq_inv k (run s inp (5 + t)) /\ in_reset k = false).
Proof.
  intros F E.
  assert (H : forall t, exists k, seq_inv k (run s inp (S t))).
  { induction t as [|t [k IH]].
    - pose proof (stale s (ack (inp 0%nat)) (dat_r (inp 0%nat)) (irq (inp 0%nat)) F) as P. cbv zeta in P.
      destruct P as (_ & _ & A & _). cbn [run]. exists 2.
      assert (Fw' : mp_fwd (s_map (step s (inp 0%nat))) = ex_fwd (s_exc (step s (inp 0%nat)))).
      { unfold step. rewrite (env_rst _ E). cbn [s_map s_exc map_next exc_next mp_fwd ex_fwd]. rewrite is_csr_same. reflexivity. }
      constructor; try assumption; try (intros; lia); try reflexivity.
      + rewrite step_nst by apply E. exact A.
      + unfold step. rewrite (env_rst _ E). cbn [s_map map_next mp_fwd mp_op]. intros H. apply andb_prop in H. apply map_is_csr_op. tauto.
    - destruct (seq_inv_step k _ (inp (S t)) IH (env_rst _ E _) (env_word _ E _)) as (k' & ? & _). exists k'. assumption. }
  split; [exact H|].
  destruct (fresh_five s inp F) as (_ & A & _); [intros; apply E|].
  induction t as [|t (k & IH & N)].
  - destruct (H 4%nat) as [k K]. exists k. split; [exact K|].
    destruct K as [(_ & K & _) L _ _ _ _]. destruct A as (_ & A & _). rewrite K in A. assert (k = 0) by lia. subst. reflexivity.
  - destruct (seq_inv_step k _ (inp (5 + t)%nat) IH (env_rst _ E _) (env_word _ E _)) as (k' & K & L).
    exists k'. rewrite Nat.add_succ_r. split; [exact K|]. destruct (in_reset k') eqn:X; [|reflexivity]. rewrite L in N; [discriminate|reflexivity].
Qed.

(** C09: from the first cycle after reset on, whatever the slave and the IRQ line do, the
    microinstruction executed is one that microcode.asm defines ([rom_defined]), which is
    not [halt] (254), not [panic] (255) and not a NOT_IMPLEMENTED word (a jump to
    [panic]), and it comes from the microaddress the sequencer latched. *)
Theorem C09_microcode_stays_in_program : forall s inp, fresh s -> env inp -> forall t,
  exists k, s_u (run s inp (S t)) = rom k /\ s_next (run s inp (S t)) = k + 1 /\
    In k rom_defined /\ k <> 254 /\ k <> 255 /\
    ~ (u_jmp (rom k) = J_DIRECT /\ u_target (rom k) = 255).
Proof.
  intros s inp F E t. destruct (seq_inv_run s inp F E) as [H _]. destruct (H t) as [k [(A1 & A2 & _) L _ _ _ _]].
  exists k. unfold live in L. apply existsb_exists in L. destruct L as (k' & Hk & Ek). apply Z.eqb_eq in Ek. subst k'.
  split; [assumption|]. split; [assumption|].
  assert (D : live_list = filter (fun k => negb (k =? 254) && negb (k =? 255) && negb (jumps_to_panic k)) rom_defined) by (vm_compute; reflexivity).
  rewrite D in Hk. apply filter_In in Hk. destruct Hk as [Hk B]. apply andb_prop in B. destruct B as [B B3]. apply andb_prop in B. destruct B as [B1 B2].
  apply negb_true_iff in B1, B2, B3. apply Z.eqb_neq in B1, B2.
  split; [assumption|]. split; [assumption|]. split; [assumption|].
  intros [J T]. unfold jumps_to_panic in B3. rewrite J, T in B3. discriminate.
Qed.

(** C04: from the first instruction fetch (cycle 5 after reset) on, x0 is 0, whatever the
    slave and the IRQ line do. *)
Lemma zero_writers : forallb (fun k => in_reset k || negb (u_rwrite (rom k)) ||
  match u_wsel (rom k), u_csr (rom k) with RW_INSN_RD, _ => true | _, CO_NONE => false | _, _ => true end) live_list = true.
Proof. vm_compute. reflexivity. Qed.

Lemma x0_step k s i : seq_inv k s -> in_reset k = false -> wf s -> rst i = false -> s_mem s 0 = 0 -> s_mem (step s i) 0 = 0.
Proof.
  intros [(A1 & _) L _ _ _ _] N W Hr M.
  unfold live in L. apply existsb_exists in L. destruct L as (k' & Hk & Ek). apply Z.eqb_eq in Ek. subst k'.
  pose proof zero_writers as Z0. rewrite forallb_forall in Z0. specialize (Z0 k Hk). rewrite N in Z0. cbn [orb] in Z0.
  unfold step. rewrite Hr. cbn [s_mem]. rewrite A1. unfold rf_mem_next, rf_wen, rf_waddr, rf_wdata, allow_zero_wr, reg_w_adr, upd.
  destruct (u_csr (rom k)) eqn:C; try assumption.
  - destruct (u_rwrite (rom k)); [|assumption]. cbn [negb orb] in Z0. destruct (u_wsel (rom k)); [|discriminate].
    cbn [b2z andb]. destruct (Z.eqb_spec (s_dst s) 0) as [|D]; [assumption|]. cbn [negb]. destruct (Z.eqb_spec 0 (s_dst s)); [lia|assumption].
  - destruct (Z.eqb_spec 0 (2 ^ 5 + csr_adr (rom k) (mp_enc (s_map s)))) as [E|]; [|assumption].
    exfalso. unfold csr_adr in E. pose proof (wf_mp_enc s W) as We. pose proof (bits_range (u_target (rom k)) 0 4 ltac:(lia)).
    unfold inw in We. destruct (u_csel (rom k)); lia.
Qed.

Theorem C04_x0_is_zero : forall s inp, fresh s -> env inp -> forall t, (5 <= t)%nat -> s_mem (run s inp t) 0 = 0.
Proof.
  intros s inp F E t Ht. replace t with (5 + (t - 5))%nat by lia. generalize (t - 5)%nat. clear t Ht. intros t.
  destruct (seq_inv_run s inp F E) as [_ H].
  induction t as [|t IH].
  - destruct (fresh_five s inp F) as (_ & _ & R); [intros; apply E|]. rewrite Nat.add_0_r, <- (r_x _ _ _ _ _ _ _ _ R) by lia. reflexivity.
  - destruct (H t) as (k & K & N). rewrite Nat.add_succ_r. cbn [run]. apply (x0_step k); try assumption; [|apply E].
    apply run_wf; [|apply E]. destruct F as (? & ? & ? & -> & ?). assumption.
Qed.

(** C34: from power-on, through any inputs and any resets, in every cycle: PC, MTVEC and
    MEPC are multiples of 4 (PC by construction: the register holds PC[2:32]) and the MPP
    field is 3. *)
Record reserved_ok (s : state) : Prop := {
  ro_mtvec : s_mem s 37 mod 4 = 0; ro_mepc : s_mem s 41 mod 4 = 0; ro_mpp : c_mpp (s_csr s) = 3 }.
Lemma reserved_step s i : wf s -> reserved_ok s -> reserved_ok (step s i).
Proof.
  intros W [R1 R2 R3].
  assert (M : forall a, a = 37 \/ a = 41 -> s_mem s a mod 4 = 0 -> s_mem (step s i) a mod 4 = 0).
  { intros a Ha R. assert (E : s_mem (step s i) a = s_mem s a \/ s_mem (step s i) a = 4 * (s_alu s / 4)).
    { assert (X : s_mem (step s i) = rf_mem_next (rf_wen (s_u s) (reg_w_adr (s_u s) (s_dst s)) (allow_zero_wr (s_u s)))
                     (rf_waddr (s_u s) (reg_w_adr (s_u s) (s_dst s)) (csr_adr (s_u s) (mp_enc (s_map s))))
                     (rf_wdata (s_u s) (s_alu s) (csr_dat_w (csr_adr (s_u s) (mp_enc (s_map s))) (s_alu s))) (s_mem s))
        by (unfold step; destruct (rst i); reflexivity).
      rewrite X. unfold rf_mem_next, upd. destruct (rf_wen _ _ _); [|auto].
      unfold rf_waddr, rf_wdata. pose proof (wf_dst s W) as Wd. unfold inw in Wd.
      destruct (u_csr (s_u s)).
      4: unfold reg_w_adr; destruct (u_wsel (s_u s)); destruct (Z.eqb_spec a (s_dst s)), (Z.eqb_spec a 0); try lia; auto.
      3: { unfold csr_dat_w, CSR_MTVEC, CSR_MEPC. destruct (Z.eqb_spec a (2 ^ 5 + csr_adr (s_u s) (mp_enc (s_map s)))); [|auto].
           destruct (Z.eqb_spec (csr_adr (s_u s) (mp_enc (s_map s))) 5), (Z.eqb_spec (csr_adr (s_u s) (mp_enc (s_map s))) 9); cbn [orb]; auto; lia. }
      2: unfold reg_w_adr; destruct (u_wsel (s_u s)); destruct (Z.eqb_spec a (s_dst s)), (Z.eqb_spec a 0); try lia; auto.
      unfold reg_w_adr; destruct (u_wsel (s_u s)); destruct (Z.eqb_spec a (s_dst s)), (Z.eqb_spec a 0); try lia; auto. }
    destruct E as [->| ->]; [assumption|]. rewrite Z.mul_comm. apply Z.mod_mul. lia. }
  constructor; [apply M; auto|apply M; auto|].
  unfold step. destruct (rst i); [reflexivity|]. cbn [s_csr csr_next c_mpp]. assumption.
Qed.
Theorem C34_reserved_bits : forall inp, (forall t, word (dat_r (inp t))) -> forall t,
  let x := run por inp t in
  s_mem x 37 mod 4 = 0 /\ s_mem x 41 mod 4 = 0 /\ c_mpp (s_csr x) = 3 /\ 0 <= 4 * s_pc x < 2 ^ 32.
Proof.
  intros inp H t.
  assert (R : reserved_ok (run por inp t)).
  { induction t as [|t IH]; [constructor; reflexivity|]. apply reserved_step; [|assumption]. apply run_wf; [apply por_wf|assumption]. }
  pose proof (wf_pc _ (run_wf por inp t por_wf H)) as P. unfold inw in P. destruct R. cbv zeta. repeat split; try assumption; lia.
Qed.

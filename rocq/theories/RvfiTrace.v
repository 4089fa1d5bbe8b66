(** * Microcode paths of one instruction (used for the RVFI properties) *)
From Coq Require Import ZArith Lia Bool List.
From Verif Require Import Bits Ucode Cpu Isa Timed BitLemmas Wf Sym Blocks CsrBlocks DecodeOk Boundary Sim Main Obs PropsBus PropsInv Observe PropsIsa PropsFrame Rvfi.
Import ListNotations.
Open Scope Z_scope.

(** ** Static facts about the ROM *)
Lemma on_live (P : Z -> bool) : forallb P live_list = true -> forall k, live k = true -> P k = true.
Proof.
  intros H k L. unfold live in L. apply existsb_exists in L. destruct L as (k' & Hk & E). apply Z.eqb_eq in E. subst k'.
  rewrite forallb_forall in H. auto.
Qed.
Definition memb (k : Z) (G : list Z) : bool := existsb (Z.eqb k) G.
Lemma memb_In k G : memb k G = true <-> In k G.
Proof.
  unfold memb. rewrite existsb_exists. split.
  - intros (x & Hx & E). apply Z.eqb_eq in E. congruence.
  - intros H. exists k. split; [assumption|apply Z.eqb_refl].
Qed.

(** Microinstructions that can raise an exception. *)
Definition checks (k : Z) : bool :=
  match u_exc (rom k) with X_LATCH_DECODER | X_LATCH_JAL | X_LATCH_STORE_ADR | X_LATCH_LOAD_ADR => true | _ => false end.
Definition is_exc_test (c : cond_test) : bool := match c with C_EXCEPTION => true | _ => false end.
Definition is_cont (j : jmp_type) : bool := match j with J_CONT => true | _ => false end.
Lemma checks_trap : forallb (fun k => negb (checks k) ||
  (is_exc_test (u_cond (rom k)) && negb (u_inv (rom k)) && negb (is_cont (u_jmp (rom k))) && (u_target (rom k) =? 240))) live_list = true.
Proof. vm_compute. reflexivity. Qed.
Lemma fetch_requests : forallb (fun k => negb (u_fetch (rom k)) || u_mreq (rom k)) live_list = true.
Proof. vm_compute. reflexivity. Qed.

(** Successors when there is no exception, without [check_int] (reached only by an
    acknowledged fetch). *)
Definition may (k : Z) (b : bool) : bool :=
  match u_cond (rom k) with C_TRUE => xorb b (u_inv (rom k)) | C_EXCEPTION => Bool.eqb b (u_inv (rom k)) | _ => true end.
Definition next_list (k : Z) (b : bool) : list Z :=
  if may k b then match next_of k b with Some n => if n =? 1 then [] else [n] | None => [] end else [].
Definition nsucc (k : Z) : list Z := next_list k true ++ next_list k false.

Lemma at_unique k k' x : at_ k x -> at_ k' x -> k = k'.
Proof. intros (_ & A & _) (_ & B & _). lia. Qed.

Lemma exc_checks k x i : seq_inv k x -> exc_now x i = true -> checks k = true.
Proof.
  intros Q X. destruct (si_at _ _ Q) as (A & _). unfold exc_now, exception_of in X. unfold checks. rewrite <- A.
  destruct (u_exc (s_u x)); (reflexivity || discriminate).
Qed.
Lemma exc_next_240 k x i : seq_inv k x -> rst i = false -> word (dat_r i) -> exc_now x i = true -> seq_inv 240 (step x i).
Proof.
  intros Q Hr Hd X. pose proof (exc_checks k x i Q X) as C. pose proof (on_live _ checks_trap k (si_live _ _ Q)) as H. cbv beta in H.
  rewrite C in H. cbn [negb orb] in H. apply andb_prop in H. destruct H as [H T]. apply andb_prop in H. destruct H as [H J]. apply andb_prop in H. destruct H as [H I].
  apply Z.eqb_eq in T. apply negb_true_iff in I, J.
  destruct (seq_inv_step k x i Q Hr Hd) as (k' & Q' & _). destruct (si_at _ _ Q) as (A1 & A2 & A3 & A4).
  assert (S240 : seq_now x i = 240).
  { unfold seq_now, seq_adr, test_now, test_of. rewrite A4, A1, I, X, T. destruct (u_cond (rom k)); try discriminate H.
    destruct (u_jmp (rom k)); (reflexivity || discriminate). }
  assert (E : k' = 240). { apply (at_unique k' 240 (step x i)); [apply Q'|]. apply (at_next k); try assumption; [apply Q|lia]. }
  subst k'. exact Q'.
Qed.

Lemma not_committed_no_check_int k x i n : seq_inv k x -> next_of k (test_now x i) = Some n -> committed x i = false -> n <> 1.
Proof.
  intros Q N C ->. destruct (si_at _ _ Q) as (A1 & A2 & A3 & A4).
  assert (Pb : possible k (test_now x i) = true).
  { unfold possible, test_now, test_of. rewrite A1. destruct (u_cond (rom k)); try reflexivity. destruct (u_inv (rom k)); reflexivity. }
  pose proof (next_sound k (test_now x i) (si_live _ _ Q) Pb) as H. unfold next_ok in H. rewrite N in H.
  apply andb_prop in H. destruct H as [H _]. apply andb_prop in H. destruct H as [_ H]. change (1 =? 1) with true in H. cbn [negb orb] in H.
  apply andb_prop in H. destruct H as [H Hx]. apply andb_prop in H. destruct H as [Hf Hc].
  assert (Ak : ack i = true).
  { revert Hx. unfold test_now, test_of. rewrite A1. destruct (u_cond (rom k)); try discriminate Hc. destruct (u_inv (rom k)), (ack i); cbn; congruence. }
  unfold committed in C. rewrite A1, Hf, Ak in C. cbn [andb] in C. apply Z.eqb_neq in C. apply C.
  unfold seq_now, seq_adr. rewrite A4, A1, A2. unfold next_of in N. unfold CHECK_INT_ADDR. destruct (u_jmp (rom k)); congruence.
Qed.

Lemma nsucc_sound k x i : seq_inv k x -> k <> 1 -> k <> 36 -> rst i = false -> word (dat_r i) ->
  exc_now x i = false -> committed x i = false -> exists n, In n (nsucc k) /\ seq_inv n (step x i).
Proof.
  intros Q N1 N36 Hr Hd X C. destruct (si_at _ _ Q) as (A1 & A2 & A3 & A4).
  destruct (seq_inv_step k x i Q Hr Hd) as (k' & Q' & _).
  assert (Pb : possible k (test_now x i) = true).
  { unfold possible, test_now, test_of. rewrite A1. destruct (u_cond (rom k)); try reflexivity. destruct (u_inv (rom k)); reflexivity. }
  assert (M : may k (test_now x i) = true).
  { unfold may, test_now, test_of. rewrite A1, X. destruct (u_cond (rom k)); try reflexivity; destruct (u_inv (rom k)); reflexivity. }
  pose proof (next_sound k (test_now x i) (si_live _ _ Q) Pb) as H. unfold next_ok in H.
  destruct (next_of k (test_now x i)) as [n|] eqn:N.
  2:{ apply orb_prop in H. rewrite !Z.eqb_eq in H. lia. }
  pose proof (not_committed_no_check_int k x i n Q N C) as Nn.
  assert (E : seq_now x i = n).
  { unfold seq_now, seq_adr. rewrite A4, A1, A2. unfold next_of in N. destruct (u_jmp (rom k)); congruence. }
  repeat (apply andb_prop in H; destruct H as [H ?]).
  assert (An : at_ n (step x i)). { apply (at_next k); try assumption; [apply Q|]. pose proof (live_range n H). lia. }
  assert (k' = n) by (apply (at_unique k' n (step x i)); [apply Q'|assumption]). subst k'. exists n. split; [|assumption].
  unfold nsucc. apply in_or_app.
  assert (L : In n (next_list k (test_now x i))).
  { unfold next_list. rewrite M, N. destruct (Z.eqb_spec n 1); [lia|]. left. reflexivity. }
  destruct (test_now x i); [left|right]; exact L.
Qed.

(** Sets of microaddresses closed under [nsucc], except at [stop]. *)
Definition closed (stop : Z -> bool) (G : list Z) : bool :=
  forallb (fun k => stop k || (negb (k =? 1) && negb (k =? 36) && forallb (fun n => memb n G) (nsucc k))) G.
Fixpoint clos (stop : Z -> bool) (fuel : nat) (todo G : list Z) : list Z :=
  match fuel with
  | O => G
  | S f => match todo with
           | [] => G
           | k :: r => if memb k G then clos stop f r G
                       else clos stop f (if stop k then r else nsucc k ++ r) (k :: G)
           end
  end.
(** Microaddresses after [n] cycles without a bus request. *)
Fixpoint levels (n : nat) (L : list Z) : list Z :=
  match n with O => L | S m => levels m (flat_map nsucc (filter (fun k => negb (u_mreq (rom k))) L)) end.

Section T.
Variables (s : state) (inp : nat -> input).
Hypothesis K : ok s inp.

Lemma pos_at u : exists k, seq_inv k (run s inp (S u)).
Proof. destruct K as [F E _]. apply (seq_inv_run s inp F E). Qed.
Lemma pos_step k u : seq_inv k (run s inp u) -> exc_now (run s inp u) (inp u) = false -> committed (run s inp u) (inp u) = false ->
  k <> 1 -> k <> 36 -> exists n, In n (nsucc k) /\ seq_inv n (run s inp (S u)).
Proof. intros. destruct K as [F E _]. cbn [run]. apply nsucc_sound; try assumption; apply E. Qed.
Lemma pos_exc k u : seq_inv k (run s inp u) -> exc_now (run s inp u) (inp u) = true -> seq_inv 240 (run s inp (S u)).
Proof. intros. destruct K as [F E _]. cbn [run]. eapply exc_next_240; try eassumption; apply E. Qed.
Lemma pos_cyc k u : seq_inv k (run s inp u) -> o_cyc (run s inp u) = u_mreq (rom k).
Proof. intros Q. destruct (si_at _ _ Q) as (A1 & _ & A3 & _). unfold o_cyc. rewrite A1, A3. apply andb_true_r. Qed.

Definition calm (u : nat) : Prop := exc_now (run s inp u) (inp u) = false /\ committed (run s inp u) (inp u) = false.

Lemma walk stop G k a n : closed stop G = true -> seq_inv k (run s inp a) -> In k G ->
  (forall u, (a <= u < a + n)%nat -> calm u /\ forall j, seq_inv j (run s inp u) -> stop j = false) ->
  exists k', In k' G /\ seq_inv k' (run s inp (a + n)).
Proof.
  intros Cl Q I H. induction n as [|n IH].
  - rewrite Nat.add_0_r. exists k. auto.
  - destruct IH as (k' & I' & Q'); [intros u Hu; apply H; lia|].
    destruct (H (a + n)%nat ltac:(lia)) as [[Cx Cc] Hs]. specialize (Hs k' Q').
    unfold closed in Cl. rewrite forallb_forall in Cl. specialize (Cl k' I'). rewrite Hs in Cl. cbn [orb] in Cl.
    apply andb_prop in Cl. destruct Cl as [Cl C3]. apply andb_prop in Cl. destruct Cl as [C1 C2]. apply negb_true_iff in C1, C2. apply Z.eqb_neq in C1, C2.
    destruct (pos_step k' (a + n) Q' Cx Cc C1 C2) as (m & Im & Qm). rewrite Nat.add_succ_r. exists m. split; [|exact Qm].
    rewrite forallb_forall in C3. apply memb_In. apply C3. assumption.
Qed.

Lemma walk_levels L k a n : seq_inv k (run s inp a) -> In k L ->
  (forall m, (m < n)%nat -> forallb (fun k => u_mreq (rom k) || negb (k =? 1) && negb (k =? 36)) (levels m L) = true) ->
  (forall u, (a <= u < a + n)%nat -> calm u /\ o_cyc (run s inp u) = false) ->
  exists k', In k' (levels n L) /\ seq_inv k' (run s inp (a + n)).
Proof.
  revert L k a. induction n as [|n IH]; intros L k a Q I Hl H.
  - rewrite Nat.add_0_r. exists k. auto.
  - destruct (H a ltac:(lia)) as [[Cx Cc] Cy]. rewrite (pos_cyc k a Q) in Cy.
    pose proof (Hl 0%nat ltac:(lia)) as H0. cbn [levels] in H0. rewrite forallb_forall in H0. specialize (H0 k I). rewrite Cy in H0. cbn [orb] in H0.
    apply andb_prop in H0. rewrite !negb_true_iff, !Z.eqb_neq in H0.
    destruct (pos_step k a Q Cx Cc (proj1 H0) (proj2 H0)) as (m & Im & Qm).
    replace (a + S n)%nat with (S a + n)%nat by lia. cbn [levels]. apply (IH _ m).
    + exact Qm.
    + apply in_flat_map. exists k. split; [|assumption]. apply filter_In. rewrite Cy. auto.
    + intros m' Hm. apply (Hl (S m')). lia.
    + intros u Hu. apply H. lia.
Qed.

(** ** Commit cycles are the cycles in which a fetch is acknowledged *)
Lemma cycle0 : s_sguard s = true /\ s_next s = 2 /\ o_cyc s = false.
Proof. destruct K as [(u & m & rd & -> & _) _ _]. repeat split. unfold o_cyc. cbn. apply andb_false_r. Qed.

Lemma fetch_pos t w : fetch_done s inp t w -> exists a, machine s inp t = Fetching a /\ fetch_wait a (run s inp t) /\ boundary a w (run s inp (S t)).
Proof.
  intros F. destruct (fetch_machine s inp K t w F) as [a M]. destruct F as (C & U & A & D). exists a. split; [exact M|].
  split; [|rewrite <- D; apply fetch_boundary; assumption].
  destruct t as [|t]. { cbn in C. destruct cycle0 as (_ & _ & ?). congruence. }
  destruct (ok_sim s inp K t) as [W H]. pose proof (timed_cyc s inp K (S t)) as TC. rewrite C in TC. unfold t_cyc in TC.
  pose proof (ok'_polite _ _ K (S t)) as P. fold (timed s inp (S t)) in P.
  pose proof (timed_machine s inp K (S t)) as TM. rewrite M in TM. rewrite TM in H.
  destruct (t_idle _) eqn:I; [|discriminate]. destruct (t_early _) eqn:E; [rewrite P in A by reflexivity; discriminate|].
  inversion H as [t' s' Q|]; subst. cbn [ready] in Q. inversion Q; subst. assumption.
Qed.

Lemma commit_iff t : committed (run s inp t) (inp t) = true <-> exists w, fetch_done s inp t w.
Proof.
  split.
  - intros C. unfold committed in C. apply andb_prop in C. destruct C as [C C3]. apply andb_prop in C. destruct C as [C1 C2].
    exists (dat_r (inp t)). destruct t as [|t].
    { exfalso. cbn [run] in C3. unfold seq_now, seq_adr in C3. destruct cycle0 as (G & N & _). rewrite G, N in C3. discriminate. }
    destruct (pos_at t) as [k Q]. pose proof (on_live _ fetch_requests k (si_live _ _ Q)) as H. cbv beta in H.
    destruct (si_at _ _ Q) as (A1 & _). rewrite A1 in C1. rewrite C1 in H. cbn [negb orb] in H.
    repeat split; try assumption. { rewrite (pos_cyc k _ Q). assumption. } rewrite A1. assumption.
  - intros [w F]. destruct (fetch_pos t w F) as (a & _ & (A & _) & _). destruct F as (_ & U & Ak & _). unfold committed.
    rewrite U, Ak. cbn [andb]. apply Z.eqb_eq. unfold seq_now, seq_adr, test_now, test_of.
    destruct A as [A|[A|A]]; destruct A as (A1 & A2 & A3 & A4); rewrite A4, A1;
    match goal with |- context[rom ?k] => vmchange (rom k) end; cbn [u_cond u_inv u_jmp u_target]; rewrite Ak, ?A2; reflexivity.
Qed.
Lemma commit_no t : (forall w, ~ fetch_done s inp t w) -> committed (run s inp t) (inp t) = false.
Proof. intros H. destruct (committed _ _) eqn:C; [|reflexivity]. apply commit_iff in C. destruct C as [w F]. exfalso. exact (H w F). Qed.

Lemma wait_calm t w : fetch_done s inp t w -> exc_now (run s inp t) (inp t) = false.
Proof.
  intros F. destruct (fetch_pos t w F) as (a & _ & (A & _) & _). unfold exc_now, exception_of.
  destruct A as [A|[A|A]]; destruct A as (A1 & _); rewrite A1; reflexivity.
Qed.

(** ** The window of one instruction *)
Section W.
Variables (t t' : nat) (w : Z).
Hypothesis X : executes s inp t t' w.
Let x := run s inp (S t).

Lemma win_commit u : (t < u < t')%nat -> committed (run s inp u) (inp u) = false.
Proof. intros Hu. destruct X as (_ & _ & _ & N). apply commit_no. intros w'. apply N. assumption. Qed.
Lemma win_commit_t : committed (run s inp t) (inp t) = true.
Proof. apply commit_iff. exists w. apply X. Qed.
Lemma win_commit_t' : committed (run s inp t') (inp t') = true.
Proof. apply commit_iff. apply X. Qed.

Lemma win_start : exists a, machine s inp t = Fetching a /\ boundary a w x /\ seq_inv 1 x.
Proof.
  destruct (fetch_pos t w (proj1 X)) as (a & M & _ & B). exists a. split; [assumption|]. split; [assumption|].
  destruct (pos_at t) as [k Q]. assert (k = 1) by (apply (at_unique k 1 x); [apply Q|apply B]). subst. exact Q.
Qed.

(** First request after the fetch. *)
Definition D (a : arch) : nat := fst (fetch_delay a w (irq (inp (t + 1)%nat)) (irq (inp (t + 2)%nat))).
Lemma win_request a : machine s inp t = Fetching a ->
  (forall j, (j < D a)%nat -> o_cyc (run s inp (S t + j)) = false) /\ o_cyc (run s inp (S t + D a)) = true.
Proof.
  intros M. destruct (proj1 X) as (C & _ & A & E). pose proof (next_request s inp K t C A) as H. cbv zeta in H.
  rewrite M in H. cbn [delay_after] in H. rewrite E in H. unfold irqs in H. fold (D a) in H.
  replace (S t) with (t + 1)%nat by lia. exact H.
Qed.
Lemma win_end a : machine s inp t = Fetching a -> (S t + D a <= t')%nat.
Proof.
  intros M. destruct (win_request a M) as [H _]. destruct (Nat.le_gt_cases (S t + D a) t') as [|G]; [assumption|].
  destruct X as (_ & L & (w' & C & _) & _). specialize (H (t' - S t)%nat ltac:(lia)). replace (S t + (t' - S t))%nat with t' in H by lia. congruence.
Qed.

(** An exception leads to the handler's fetch five cycles later. *)
Lemma exc_five u : (0 < u)%nat -> exc_now (run s inp u) (inp u) = true ->
  (forall j, (1 <= j < 5)%nat -> o_cyc (run s inp (u + j)) = false) /\ o_cyc (run s inp (u + 5)) = true.
Proof.
  intros Hu E. destruct u as [|u]; [lia|]. destruct (pos_at u) as [k Q]. pose proof (pos_exc k _ Q E) as Q1.
  assert (St : forall v k n, seq_inv k (run s inp v) -> u_mreq (rom k) = false -> u_fetch (rom k) = false -> checks k = false -> k <> 1 -> k <> 36 -> nsucc k = [n] ->
               o_cyc (run s inp v) = false /\ seq_inv n (run s inp (S v))).
  { intros v k0 n Q0 Hm Hf Hc H1 H36 Hn. split; [rewrite (pos_cyc k0 v Q0); assumption|].
    destruct (pos_step k0 v Q0) as (n' & I & Qn); try assumption.
    - destruct (exc_now (run s inp v) (inp v)) eqn:Y; [|reflexivity]. rewrite (exc_checks k0 _ _ Q0 Y) in Hc. discriminate.
    - unfold committed. destruct (si_at _ _ Q0) as (A1 & _). rewrite A1, Hf. reflexivity.
    - rewrite Hn in I. destruct I as [<-|[]]. exact Qn. }
  destruct (St _ 240 241 Q1) as [C1 Q2]; try reflexivity; try lia.
  destruct (St _ 241 242 Q2) as [C2 Q3]; try reflexivity; try lia.
  destruct (St _ 242 243 Q3) as [C3 Q4]; try reflexivity; try lia.
  destruct (St _ 243 244 Q4) as [C4 Q5]; try reflexivity; try lia.
  split.
  - intros j Hj. assert (j = 1 \/ j = 2 \/ j = 3 \/ j = 4)%nat as [-> | [-> | [-> | -> ]]] by lia; [rewrite <- C1|rewrite <- C2|rewrite <- C3|rewrite <- C4]; do 2 f_equal; lia.
  - replace (S u + 5)%nat with (S (S (S (S (S (S u)))))) by lia. rewrite (pos_cyc 244 _ Q5). reflexivity.
Qed.
Lemma exc_delay a j : machine s inp t = Fetching a -> (j < D a)%nat -> exc_now (run s inp (S t + j)) (inp (S t + j)%nat) = true -> D a = (j + 5)%nat.
Proof.
  intros M Hj E. destruct (win_request a M) as [R1 R2]. destruct (exc_five (S t + j) ltac:(lia) E) as [F1 F2].
  destruct (Nat.lt_trichotomy (D a) (j + 5)) as [L|[L|L]]; [|assumption|].
  - specialize (F1 (D a - j)%nat ltac:(lia)). replace (S t + j + (D a - j))%nat with (S t + D a)%nat in F1 by lia. congruence.
  - specialize (R1 (j + 5)%nat L). replace (S t + (j + 5))%nat with (S t + j + 5)%nat in R1 by lia. congruence.
Qed.

(** No exception once a request has been made. *)
Definition after_request := Eval vm_compute in clos (fun _ => false) 2000 (filter (fun k => u_mreq (rom k)) live_list) [].
Lemma after_closed : closed (fun _ => false) after_request = true. Proof. vm_compute. reflexivity. Qed.
Lemma after_checks : forallb (fun k => negb (checks k)) after_request = true. Proof. vm_compute. reflexivity. Qed.
Lemma after_start : forallb (fun k => negb (u_mreq (rom k)) || memb k after_request) live_list = true. Proof. vm_compute. reflexivity. Qed.
Lemma calm_after a v : machine s inp t = Fetching a -> (S t + D a <= v <= t')%nat -> exc_now (run s inp v) (inp v) = false.
Proof.
  intros M. destruct (win_request a M) as [_ R]. set (u := (S t + D a)%nat) in *. assert (Hu : (t < u)%nat) by lia. clearbody u.
  assert (P : forall n, (u + n <= t')%nat -> exists k, In k after_request /\ seq_inv k (run s inp (u + n))).
  { induction n as [|n IH]; intros Hn.
    - rewrite Nat.add_0_r. destruct u as [|u']; [lia|]. destruct (pos_at u') as [k Q]. exists k. split; [|exact Q].
      pose proof (on_live _ after_start k (si_live _ _ Q)) as H. cbv beta in H. rewrite <- (pos_cyc k _ Q), R in H. apply memb_In. exact H.
    - destruct (IH ltac:(lia)) as (k & I & Q).
      destruct (walk (fun _ => false) after_request k (u + n) 1 after_closed Q I) as (k' & I' & Q').
      + intros v' Hv. assert (v' = (u + n)%nat) by lia. subst v'. split; [|reflexivity]. split; [|apply win_commit; lia].
        destruct (exc_now (run s inp (u + n)) (inp (u + n)%nat)) eqn:Y; [|reflexivity]. pose proof (exc_checks k _ _ Q Y) as C. pose proof after_checks as Z0. rewrite forallb_forall in Z0.
        specialize (Z0 k I). rewrite C in Z0. discriminate.
      + exists k'. split; [assumption|]. replace (u + S n)%nat with (u + n + 1)%nat by lia. assumption. }
  intros Hv. destruct (P (v - u)%nat) as (k & I & Q); [lia|]. replace (u + (v - u))%nat with v in Q by lia.
  destruct (exc_now (run s inp v) (inp v)) eqn:Y; [|reflexivity]. pose proof (exc_checks k _ _ Q Y) as C. pose proof after_checks as Z0. rewrite forallb_forall in Z0.
  specialize (Z0 k I). rewrite C in Z0. discriminate.
Qed.

(** ** What the decoder does with the word *)
Lemma win_long : (S t < t')%nat.
Proof.
  destruct win_start as (a & M & _ & Q). destruct X as (_ & L & (w' & C & _) & _).
  destruct (Nat.eq_dec (S t) t') as [E|]; [|lia]. rewrite <- E, (pos_cyc 1 _ Q) in C. discriminate C.
Qed.

Lemma start_exc a : boundary a w x -> exc_now x (inp (S t)) = exc_first w || intp a (irq (inp (S t))).
Proof.
  intros B. destruct (b_at _ _ _ B) as (A & _). unfold exc_now, exception_of. rewrite A. change (u_exc (rom 1)) with X_LATCH_DECODER. cbv iota.
  rewrite (b_exc _ _ _ B). cbn [ex_valid]. rewrite (int_pending_rel a x _ (b_rel _ _ _ B)). reflexivity.
Qed.

Lemma illegal_first : word w -> match decode w with
  | None | Some Ecall | Some Ebreak => exc_first w = true
  | Some _ => exc_first w = false end.
Proof.
  intros Hw. destruct (decode w) as [i|] eqn:Dw; [|apply decode_none; assumption].
  assert (i = Ecall \/ i = Ebreak \/ is_csr i = true \/ (is_csr i = false /\ i <> Ecall /\ i <> Ebreak)) as [->|[->|[C|(C & N1 & N2)]]] by (destruct i; intuition congruence).
  - apply decode_ecall in Dw. rewrite Dw. reflexivity.
  - apply decode_ebreak in Dw. rewrite Dw. reflexivity.
  - destruct i; try discriminate C. apply (decode_csr w _ _ _ _ 0 Dw).
  - destruct (decode_some w i 0 0 Dw C N1 N2) as (E & _). destruct i; (exact E || congruence).
Qed.
Lemma win_word : word w.
Proof. destruct X as ((_ & _ & _ & E) & _). rewrite <- E. apply K. Qed.

Let s1 := run s inp (S (S t)).
Lemma run1 : s1 = nst x (ack (inp (S t))) (dat_r (inp (S t))) (irq (inp (S t))).
Proof. unfold s1, x. cbn [run]. apply step_nst. apply K. Qed.
Let s2 := run s inp (S (S (S t))).
Lemma run2 : s2 = nst s1 (ack (inp (S (S t)))) (dat_r (inp (S (S t)))) (irq (inp (S (S t)))).
Proof. unfold s2, s1. cbn [run]. apply step_nst. apply K. Qed.

Lemma entry_bounds i : 0 <= entry i < 255.
Proof.
  destruct i as [| | | |cc ? ? ?|sz sg ? ? ?|sz ? ? ?|f ? ? ?|f ? ? ?| | | | | |]; cbn [entry]; try lia;
  [destruct cc|destruct sz, sg|destruct sz|destruct f|destruct f]; cbn; lia.
Qed.

(** Instructions other than CSR instructions: at their entry point. *)
Lemma at_entry a i : boundary a w x -> decode w = Some i -> is_csr i = false -> exc_now x (inp (S t)) = false ->
  seq_inv (entry i) s1.
Proof.
  intros B Dw C E. rewrite (start_exc a B) in E. apply orb_false_elim in E. destruct E as [V I1].
  assert (N : i <> Ecall /\ i <> Ebreak). { pose proof (illegal_first win_word) as H. rewrite Dw in H. split; intros ->; congruence. }
  destruct N as [N1 N2]. destruct (b_map _ _ _ B) as (c & e & M).
  destruct (decode_some w i c c Dw C N1 N2) as (_ & _ & _ & Me & _).
  assert (V0 : ex_valid (s_exc x) = false) by (rewrite (b_exc _ _ _ B); exact V).
  pose proof (check_pass a x (ack (inp (S t))) (dat_r (inp (S t))) (irq (inp (S t))) (entry i) (b_at _ _ _ B) (b_rel _ _ _ B) I1 V0 (b_rdata _ _ _ B)) as P.
  rewrite M in P. cbn [mp_req] in P. specialize (P Me (entry_bounds i)). cbv zeta in P. rewrite <- run1 in P. destruct P as (A & _).
  destruct (pos_at (S t)) as [k Q]. assert (k = entry i) by (apply (at_unique k _ s1); [apply Q|exact A]). subst k. exact Q.
Qed.

(** CSR instructions: the second decode cycle. *)
Definition csr_bad (f : csr_fn) (g : csr_arg) (n : Z) : bool := negb (known n) || csr_writes f g && csr_read_only n.
Lemma at_tramp a f rd g n : boundary a w x -> decode w = Some (Csr f rd g n) -> exc_now x (inp (S t)) = false ->
  seq_inv 36 s1 /\ exc_now s1 (inp (S (S t))) = csr_bad f g n || intp a (irq (inp (S (S t)))) /\
  (exc_now s1 (inp (S (S t))) = false -> exists imm, g = (if imm : bool then CImm (fld w 15 5) else CReg (fld w 15 5)) /\
     seq_inv (if ro_zero n then 0x25 else csr_entry f imm (fld w 7 5) (fld w 15 5)) s2 /\ (ro_zero n = false -> In n impl_csrs /\ mp_enc (s_map s2) = csr_enc n)).
Proof.
  intros B Dw E. rewrite (start_exc a B) in E. apply orb_false_elim in E. destruct E as [V I1].
  pose proof (b_at _ _ _ B) as A. pose proof (b_rel _ _ _ B) as R. pose proof (b_wf _ _ _ B) as W.
  destruct (b_map _ _ _ B) as (c & e & M).
  destruct (decode_csr w f rd g n c Dw) as (_ & Mc & Ec & Me & Fit).
  destruct Fit as (-> & -> & imm & -> & F3).
  set (n := fld w 20 12) in *.
  assert (Hn : 0 <= n < 4096) by (apply (fld_range w 20 12); lia).
  assert (V0 : ex_valid (s_exc x) = false) by (rewrite (b_exc _ _ _ B); exact V).
  pose proof (check_pass a x (ack (inp (S t))) (dat_r (inp (S t))) (irq (inp (S t))) 0x24 A R I1 V0 (b_rdata _ _ _ B)) as P.
  rewrite M in P. cbn [mp_req] in P. specialize (P Me ltac:(lia)).
  rewrite (b_exc _ _ _ B) in P.
  pose proof (query_rel 1 a x (ack (inp (S t))) (dat_r (inp (S t))) (irq (inp (S t))) (or_introl eq_refl) A R I1) as R1.
  rewrite <- run1 in R1. cbv zeta in P. rewrite <- run1 in P.
  cbn [mp_src_a mp_dst mp_fwd mp_op mp_req mp_enc ex_src_a ex_fwd ex_quad ex_op ex_ro ex_valid ex_type] in P.
  rewrite Mc, Ec in P. destruct P as (A1 & S1 & _ & _ & Sa & _ & Sd & _ & Sm & M1 & V1 & T1).
  pose proof (attr_at n Hn) as At. unfold attr_ok in At.
  rewrite (b_attr _ _ _ B) in M1, V1. unfold csr_attr_next in M1, V1. change (i_funct12 w) with n in M1, V1.
  set (at0 := csr_rom (csr_idx n)) in *.
  assert (Eq : bits w 28 2 = bits n 8 2) by (symmetry; unfold n; apply (fld_fld w 20 12 8 2); lia).
  assert (Ero : bits w 30 2 = fld n 10 2) by (symmetry; unfold n; apply (fld_fld w 20 12 10 2); lia).
  rewrite Eq, Ero in V1. change (fld n 10 2 =? 3) with (csr_read_only n) in V1.
  change (i_funct3 w) with (fld w 12 3) in *. rewrite F3 in M1, V1.
  change (i_rs1 w) with (fld w 15 5) in *. change (i_rd w) with (fld w 7 5) in *.
  assert (Wr : csr_writes f (if imm then CImm (fld w 15 5) else CReg (fld w 15 5)) =
               (match f with CSRRW => true | _ => negb (fld w 15 5 =? 0) end)) by (destruct f, imm; reflexivity).
  assert (Vx : ex_valid (s_exc s1) = csr_bad f (if imm then CImm (fld w 15 5) else CReg (fld w 15 5)) n).
  { unfold csr_bad. rewrite V1, Wr. unfold exc_second. apply andb_prop in At. destruct At as [At _]. apply andb_prop in At. destruct At as [At _].
    apply eqb_prop in At. rewrite <- At.
    destruct (ill at0); cbn [negb andb orb]; [reflexivity|].
    destruct (bits n 8 2 =? 3); cbn [negb andb orb].
    - destruct (csr_read_only n); rewrite ?andb_false_r, ?andb_true_r; cbn [andb]; [|reflexivity].
      destruct f, imm; cbn; destruct (fld w 15 5 =? 0); reflexivity.
    - destruct (csr_read_only n && _); reflexivity. }
  destruct (pos_at (S t)) as [k Q]. assert (k = 36) by (apply (at_unique k _ s1); [apply Q|exact A1]). subst k. fold s1 in Q. split; [exact Q|].
  assert (Ex : exc_now s1 (inp (S (S t))) = csr_bad f (if imm then CImm (fld w 15 5) else CReg (fld w 15 5)) n || intp a (irq (inp (S (S t))))).
  { destruct A1 as (A1 & _). unfold exc_now, exception_of. rewrite A1. change (u_exc (rom 36)) with X_LATCH_DECODER. cbv iota.
    rewrite Vx, (int_pending_rel a s1 _ R1). reflexivity. }
  split; [exact Ex|]. rewrite Ex. intros Nb. apply orb_false_elim in Nb. destruct Nb as [Bad I2]. rewrite Bad in Vx.
  unfold csr_bad in Bad. apply orb_false_elim in Bad. destruct Bad as [Kn Bad]. apply negb_false_iff in Kn. rewrite Kn in *.
  cbn [negb orb] in At. apply andb_prop in At. destruct At as [At At3]. apply andb_prop in At. destruct At as [At1 At2].
  apply eqb_prop in At1. symmetry in At1. apply eqb_prop in At2.
  assert (Il : ill at0 = false) by (destruct (ill at0); [discriminate At1|reflexivity]).
  assert (Ent : mp_req (s_map s1) = if ro_zero n then 0x25 else csr_entry f imm (fld w 7 5) (fld w 15 5)).
  { rewrite M1. cbn [mp_req]. unfold map_second. rewrite Il, At2. destruct (ro_zero n); [reflexivity|].
    unfold csr_entry. destruct f, imm; cbn; destruct (fld w 7 5 =? 0), (fld w 15 5 =? 0); reflexivity. }
  assert (Rg : 0 <= (if ro_zero n then 0x25 else csr_entry f imm (fld w 7 5) (fld w 15 5)) < 255).
  { unfold csr_entry. destruct (ro_zero n), f, imm; destruct (fld w 7 5 =? 0), (fld w 15 5 =? 0); lia. }
  pose proof (tramp_pass a s1 (ack (inp (S (S t)))) (dat_r (inp (S (S t)))) (irq (inp (S (S t)))) _ A1 S1 R1 I2 Vx Ent Rg) as P2.
  cbv zeta in P2. rewrite <- run2 in P2. destruct P2 as (A2 & S2 & Rd2 & Sa2 & Sd2 & Sm2 & En2).
  exists imm. split; [reflexivity|]. split.
  - destruct (pos_at (S (S t))) as [k Q2]. fold s2 in Q2. match type of A2 with at_ ?e _ => assert (k = e) by (apply (at_unique k _ s2); [apply Q2|exact A2]) end. subst k. exact Q2.
  - intros Z0. rewrite Z0 in At3. cbn [orb] in At3. apply existsb_exists in At3. destruct At3 as (n' & Hin & En). apply Z.eqb_eq in En. subst n'.
    split; [assumption|]. rewrite En2, M1. cbn [mp_enc]. unfold csr_enc. change bits with fld. unfold n. rewrite !fld_fld by lia. reflexivity.
Qed.

(** ** Exceptions are exactly the traps of the specification *)
Definition raised : Prop := exists u, (t < u <= t')%nat /\ exc_now (run s inp u) (inp u) = true.
Lemma exc_dec : raised \/ forall u, (t < u <= t')%nat -> exc_now (run s inp u) (inp u) = false.
Proof.
  unfold raised. assert (P : forall n, (exists u, (t < u <= t + n)%nat /\ exc_now (run s inp u) (inp u) = true) \/ forall u, (t < u <= t + n)%nat -> exc_now (run s inp u) (inp u) = false).
  { induction n as [|n [(u & Hu & E)|IH]].
    - right. intros; lia.
    - left. exists u. split; [lia|assumption].
    - destruct (exc_now (run s inp (t + S n)) (inp (t + S n)%nat)) eqn:E.
      + left. exists (t + S n)%nat. split; [lia|assumption].
      + right. intros u Hu. destruct (Nat.eq_dec u (t + S n)) as [->|]; [assumption|]. apply IH. lia. }
  destruct X as (_ & L & _). specialize (P (t' - t)%nat). replace (t + (t' - t))%nat with t' in P by lia. exact P.
Qed.

(** Paths without exception checks. *)
Definition plain_entry (i : instr) : bool :=
  match i with Jal _ _ | Jalr _ _ _ | Branch _ _ _ _ | Load _ _ _ _ _ | Store _ _ _ _ | Ecall | Ebreak | Csr _ _ _ _ => false | _ => true end.
Definition plain_set := Eval vm_compute in clos (fun _ => false) 2000 ([0xd0; 0x50; 0x30; 248] ++
  map shifti_entry [SLL; SRL; SRA] ++ map opimm_entry [ADD; SLT; SLTU; XOR; OR; AND] ++ map shift_entry [SLL; SRL; SRA] ++ map op_entry [ADD; SUB; SLT; SLTU; XOR; OR; AND]
  ++ csr_entries) [].
Lemma plain_closed : closed (fun _ => false) plain_set = true. Proof. vm_compute. reflexivity. Qed.
Lemma plain_checks : forallb (fun k => negb (checks k)) plain_set = true. Proof. vm_compute. reflexivity. Qed.
Lemma plain_calm k v : (t < v)%nat -> seq_inv k (run s inp v) -> In k plain_set -> forall u, (v <= u <= t')%nat -> exc_now (run s inp u) (inp u) = false.
Proof.
  intros Hv Q I.
  assert (P : forall n, (v + n <= t')%nat -> (exists k', In k' plain_set /\ seq_inv k' (run s inp (v + n))) /\ exc_now (run s inp (v + n)) (inp (v + n)%nat) = false).
  { assert (Cm : forall u k, seq_inv k (run s inp u) -> In k plain_set -> exc_now (run s inp u) (inp u) = false).
    { intros u k0 Q0 I0. destruct (exc_now _ _) eqn:Y; [|reflexivity]. pose proof (exc_checks k0 _ _ Q0 Y) as C. pose proof plain_checks as Z0. rewrite forallb_forall in Z0.
      specialize (Z0 k0 I0). rewrite C in Z0. discriminate. }
    induction n as [|n IH]; intros Hn.
    - rewrite Nat.add_0_r. split; [exists k; auto|]. eapply Cm; eassumption.
    - destruct (IH ltac:(lia)) as [(k' & I' & Q') E'].
      destruct (walk (fun _ => false) plain_set k' (v + n) 1 plain_closed Q' I') as (k2 & I2 & Q2).
      { intros u Hu. assert (u = (v + n)%nat) by lia. subst u. split; [|reflexivity]. split; [assumption|]. apply win_commit. lia. }
      replace (v + S n)%nat with (v + n + 1)%nat by lia. split; [exists k2; auto|]. eapply Cm; eassumption. }
  intros u Hu. destruct (P (u - v)%nat ltac:(lia)) as [_ E]. replace (v + (u - v))%nat with u in E by lia. exact E.
Qed.

Definition risky (i : instr) : bool := match i with Jal _ _ | Jalr _ _ _ | Branch _ _ _ _ | Load _ _ _ _ _ | Store _ _ _ _ => true | _ => false end.
Definition risky_entries : list Z := [0xb0; 0x98] ++ map branch_entry [EQ; NE; LT; GE; LTU; GEU] ++
  flat_map (fun sz => [load_entry sz true; load_entry sz false; store_entry sz]) [Byte; Half; Word].
Lemma risky_in i : risky i = true -> In (entry i) risky_entries.
Proof. destruct i as [| | | |cc ? ? ?|sz sg ? ? ?|sz ? ? ?| | | | | | | |]; try discriminate; intros _; cbn [entry]; [| |destruct cc|destruct sz, sg|destruct sz]; vm_compute; tauto. Qed.
Lemma risky_levels : forallb (fun e => negb (checks e) && negb (e =? 1) && negb (e =? 36) && negb (u_mreq (rom e)) &&
   forallb (fun m => forallb (fun k => u_mreq (rom k) || negb (k =? 1) && negb (k =? 36)) (levels m [e])) (seq 0 8) &&
   match levels 7 [e] with [] => true | _ => false end) risky_entries = true.
Proof. vm_compute. reflexivity. Qed.

Lemma raises_delay a i : rel a x -> decode w = Some i -> risky i = true -> int_enabled a && irq (inp (t + 1)%nat) = false ->
  ((exists c, sync_cause x w c) -> (8 <= D a)%nat) /\ ((forall c, ~ sync_cause x w c) -> (D a <= 6)%nat).
Proof.
  intros R Dw Rk I1. unfold D, fetch_delay. rewrite I1, Dw.
  replace (is_csr i) with false by (destruct i; (reflexivity || discriminate)). cbn [andb].
  pose proof (decode_regs w i Dw) as Rg. pose proof (pc_of_rel a x R) as Pc.
  assert (Rx : forall r, 0 <= r < 32 -> rd_x a r = x_of x r) by (intros; apply rd_x_of; assumption).
  unfold sync_cause. rewrite Dw.
  destruct i; try discriminate Rk; cbn [exec_delay]; rewrite ?Pc, ?Rx by tauto; unfold jump_delay, target_ok, aligned.
  - destruct (Z.eqb_spec (((pc_of x + off) mod 2 ^ 32) mod 4) 0) as [Z0|Z0]; unfold trap_delay; cbn [fst]; split; intros H; try lia.
    + exfalso. destruct H as (c & H & _). congruence. + exfalso. apply (H 0). auto.
  - destruct (Z.eqb_spec ((2 * (((x_of x rs1 + off) mod 2 ^ 32) / 2)) mod 4) 0) as [Z0|Z0]; unfold trap_delay; cbn [fst]; split; intros H; try lia.
    + exfalso. destruct H as (? & H & _). congruence. + exfalso. apply (H 0). auto.
  - destruct (cmp c (x_of x rs1) (x_of x rs2)) eqn:Cm.
    + destruct (Z.eqb_spec (((pc_of x + off) mod 2 ^ 32) mod 4) 0) as [Z0|Z0]; unfold trap_delay; cbn [fst]; split; intros H; try lia.
      * exfalso. destruct H as (? & _ & H & _). congruence. * exfalso. apply (H 0). auto.
    + cbn [fst]; split; intros H; try lia. exfalso. destruct H as (? & H & _). congruence.
  - destruct (Z.eqb_spec (((x_of x rs1 + off) mod 2 ^ 32) mod bytes sz) 0) as [Z0|Z0]; unfold trap_delay; cbn [fst]; split; intros H; try lia.
    + exfalso. destruct H as (? & H & _). congruence. + exfalso. apply (H 4). auto.
  - destruct (Z.eqb_spec (((x_of x rs1 + off) mod 2 ^ 32) mod bytes sz) 0) as [Z0|Z0]; unfold trap_delay; cbn [fst]; split; intros H; try lia.
    + exfalso. destruct H as (? & H & _). congruence. + exfalso. apply (H 6). auto.
Qed.

Lemma csr_bad_legal f g n : 0 <= n < 4096 -> csr_bad f g n = true <-> ~ csr_legal f g n.
Proof.
  intros Hn. unfold csr_bad, csr_legal. pose proof (known_exists n) as Ke. pose proof (ro_bits n Hn) as Ro.
  destruct (known n); cbn [negb orb].
  - destruct (csr_writes f g), (csr_read_only n); cbn [andb].
    + split; [|reflexivity]. intros _ [_ L]. apply L. split; [reflexivity|]. apply Ro. reflexivity.
    + split; [discriminate|]. intros L. exfalso. apply L. split; [apply Ke; reflexivity|]. intros [_ Y]. apply Ro in Y. discriminate.
    + split; [discriminate|]. intros L. exfalso. apply L. split; [apply Ke; reflexivity|]. intros [Y _]. discriminate.
    + split; [discriminate|]. intros L. exfalso. apply L. split; [apply Ke; reflexivity|]. intros [Y _]. discriminate.
  - split; [|reflexivity]. intros _ [L _]. apply Ke in L. discriminate.
Qed.

Lemma plain_in i : plain_entry i = true -> In (entry i) plain_set.
Proof. intros H. destruct i as [| | | |cc ? ? ?|sz sg ? ? ?|sz ? ? ?|f ? ? ?|f ? ? ?| | | | | |]; try discriminate H; cbn [entry]; try (destruct f); vm_compute; tauto. Qed.
Lemma csr_in (b : bool) f imm rd rs1 : In (if b then 0x25 else csr_entry f imm rd rs1) csr_entries.
Proof. unfold csr_entry, csr_entries. destruct b, f, imm, (rd =? 0), (rs1 =? 0); cbn; tauto. Qed.
Lemma csr_plain : forallb (fun k => memb k plain_set) csr_entries = true. Proof. vm_compute. reflexivity. Qed.

Theorem trap_iff : raised <-> traps s inp t w x.
Proof.
  destruct win_start as (a & M & B & Q). pose proof (b_rel _ _ _ B) as R. pose proof win_word as Hw. pose proof (illegal_first Hw) as Il.
  pose proof win_long as Lg. pose proof (start_exc a B) as E1.
  assert (Ti : int_taken s inp t w = intp a (irq (inp (S t))) || csr_word w && intp a (irq (inp (S (S t))))).
  { rewrite (int_taken_rel s inp t w a R). unfold intp. replace (t + 1)%nat with (S t) by lia. replace (t + 2)%nat with (S (S t)) by lia.
    destruct (int_enabled a), (irq (inp (S t))), (csr_word w), (irq (inp (S (S t)))); reflexivity. }
  assert (I1' : int_enabled a && irq (inp (t + 1)%nat) = intp a (irq (inp (S t)))) by (replace (t + 1)%nat with (S t) by lia; reflexivity).
  destruct (exc_now x (inp (S t))) eqn:X1.
  { (* in the first cycle *)
    symmetry in E1. split.
    - intros _. unfold traps. rewrite Ti. apply orb_prop in E1. destruct E1 as [V|I1]; [|left; rewrite I1; reflexivity].
      right. unfold sync_cause. destruct (decode w) as [i|]; [|eexists; reflexivity].
      destruct i; rewrite Il in V; try discriminate V; eexists; reflexivity.
    - intros _. exists (S t). split; [lia|exact X1]. }
  symmetry in E1. apply orb_false_elim in E1. destruct E1 as [V I1]. rewrite I1 in Ti. cbn [orb] in Ti.
  destruct (decode w) as [i|] eqn:Dw; [|congruence].
  assert (Fst : forall u, (t < u <= t')%nat -> u = S t \/ u = S (S t) \/ (S (S (S t)) <= u <= t')%nat) by (intros; lia).
  destruct (is_csr i) eqn:C.
  - destruct i as [| | | | | | | | | | | | | |f rd g n]; try discriminate C.
    destruct (at_tramp a f rd g n B Dw X1) as (Q1 & E2 & Nx).
    assert (Cw : csr_word w = true) by (unfold csr_word; rewrite Dw; reflexivity). rewrite Cw in Ti. cbn [andb] in Ti.
    destruct (decode_regs w _ Dw) as (_ & Hn & _). pose proof (csr_bad_legal f g n Hn) as Bl.
    assert (Sy : (exists c, sync_cause x w c) <-> csr_bad f g n = true).
    { unfold sync_cause. rewrite Dw, Bl. split; [intros (? & H & _); exact H|intros H; exists 2; auto]. }
    destruct (exc_now s1 (inp (S (S t)))) eqn:X2.
    + symmetry in E2. split.
      * intros _. unfold traps. rewrite Ti, Sy. apply orb_prop in E2. tauto.
      * intros _. exists (S (S t)). split; [lia|exact X2].
    + symmetry in E2. apply orb_false_elim in E2. destruct E2 as [Bd I2]. destruct (Nx eq_refl) as (imm & Hg & Q2 & _). split.
      * intros (u & Hu & E). exfalso. destruct (Fst u Hu) as [-> |[-> |Hu2]]; [unfold x in X1; congruence|unfold s1 in X2; congruence|].
        rewrite (plain_calm _ (S (S (S t))) ltac:(lia) Q2) in E; [discriminate| |assumption].
        pose proof csr_plain as Cp. rewrite forallb_forall in Cp. apply memb_In. apply Cp. apply csr_in.
      * unfold traps. rewrite Ti, Sy, I2, Bd. intros [H|H]; discriminate.
  - pose proof (at_entry a i B Dw C X1) as Q1.
    assert (Cw : csr_word w = false) by (unfold csr_word; rewrite Dw; exact C). rewrite Cw in Ti. cbn [andb] in Ti.
    unfold traps. rewrite Ti.
    destruct (plain_entry i) eqn:Pe.
    { split.
      - intros (u & Hu & E). exfalso. assert (u = S t \/ (S (S t) <= u <= t')%nat) as [->|Hu2] by lia; [unfold x in X1; congruence|].
        rewrite (plain_calm _ (S (S t)) ltac:(lia) Q1) in E; [discriminate|apply plain_in; assumption|assumption].
      - intros [H|(c & H)]; [discriminate|]. unfold sync_cause in H. rewrite Dw in H. destruct i; try discriminate Pe; contradiction. }
    assert (Rk : risky i = true) by (destruct i; try discriminate; try reflexivity; congruence).
    pose proof (raises_delay a i R Dw Rk) as Dl. rewrite I1' in Dl. specialize (Dl I1). destruct Dl as [D1 D2].
    pose proof risky_levels as Rl. rewrite forallb_forall in Rl. specialize (Rl (entry i) (risky_in i Rk)).
    apply andb_prop in Rl. destruct Rl as [Rl Rl6]. apply andb_prop in Rl. destruct Rl as [Rl Rl5]. apply andb_prop in Rl. destruct Rl as [Rl Rl4].
    apply andb_prop in Rl. destruct Rl as [Rl Rl3]. apply andb_prop in Rl. destruct Rl as [Rl1 Rl2]. apply negb_true_iff in Rl1.
    pose proof (win_end a M) as We. split.
    + intros (u & Hu & E). destruct (sync_cause_dec x w) as [Sy|Sy]; [right; exact Sy|exfalso]. specialize (D2 Sy).
      destruct (Nat.lt_ge_cases (u - S t) (D a)) as [Lt|Ge].
      * assert (Eu : u = (S t + (u - S t))%nat) by lia. rewrite Eu in E. pose proof (exc_delay a (u - S t) M Lt E) as Dd.
        assert (u = S t \/ u = S (S t)) as [->| ->] by lia; [unfold x in X1; rewrite <- Eu in E; congruence|].
        rewrite <- Eu in E. rewrite (exc_checks _ _ _ Q1 E) in Rl1. discriminate.
      * rewrite (calm_after a u M) in E; [discriminate|lia].
    + intros [H|Sy]; [discriminate|]. specialize (D1 Sy). destruct exc_dec as [?|No]; [assumption|exfalso].
      destruct (win_request a M) as [Wr _].
      destruct (walk_levels [entry i] (entry i) (S (S t)) 7) as (k' & I' & _).
      * exact Q1.
      * left. reflexivity.
      * intros m Hm. rewrite forallb_forall in Rl5. apply Rl5. apply in_seq. lia.
      * intros u Hu. split; [split|].
        -- apply No. lia.
        -- apply win_commit. lia.
        -- specialize (Wr (u - S t)%nat ltac:(lia)). replace (S t + (u - S t))%nat with u in Wr by lia. exact Wr.
      * destruct (levels 7 [entry i]); [exact I'|discriminate].
Qed.
End W.
End T.

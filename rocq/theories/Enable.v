(** * C70: the core behind a clock enable and a reset (tests/sim/test_top.py, FlowModifiedTop)

    The wrapper used by the reset tests, and by any design that gates Sentinel's clock domain with
    [EnableInserter] (as examples/attosoc.py:1049-1084 does). *)
From Coq Require Import ZArith Lia Bool List.
From Verif Require Import Bits Ucode Cpu Isa Timed BitLemmas Wf Sym Blocks Boundary Sim Main Obs PropsBus PropsInv.
Import ListNotations.
Open Scope Z_scope.

(** ** Model *)
(** [ResetInserter(rst)(EnableInserter(en)(Top()))] (tests/sim/test_top.py:533-551): flip-flops
    are reset whether or not they are enabled; memory ports (register file, microcode ROM) have no
    reset and do nothing while disabled (Amaranth's transformers). *)
Definition estep (en : bool) (s : state) (i : input) : state :=
  let n := step s i in
  if rst i then
    reset_regs (if en then s_u n else s_u s) (if en then s_mem n else s_mem s) (if en then s_rdata n else s_rdata s)
  else if en then n else s.
(** Cycle after cycle (tests/sim/test_top.py:548). *)
Fixpoint erun (en : nat -> bool) (s : state) (inp : nat -> input) (t : nat) : state :=
  match t with O => s | S n => estep (en n) (erun en s inp n) (inp n) end.

(** ** Specification *)
(** The inputs of the enabled cycles among the [n] cycles from cycle [t] on, in order. *)
Definition seen (en : nat -> bool) (inp : nat -> input) (t n : nat) : list input := map inp (filter en (seq t n)).

(** ** Proofs *)
Lemma seen_S en inp t n : seen en inp t (S n) = seen en inp t n ++ (if en (t + n)%nat then [inp (t + n)%nat] else []).
Proof. unfold seen. rewrite seq_S, filter_app, map_app. cbn [filter]. destruct (en (t + n)%nat); reflexivity. Qed.

Lemma erun_from en s inp t n : (forall u, (t <= u < t + n)%nat -> rst (inp u) = false) ->
  erun en s inp (t + n) = fold_left step (seen en inp t n) (erun en s inp t).
Proof.
  induction n as [|n IH]; intros H; [rewrite Nat.add_0_r; reflexivity|].
  rewrite Nat.add_succ_r. cbn [erun]. rewrite seen_S, fold_left_app, <- IH by (intros; apply H; lia).
  unfold estep. rewrite (H (t + n)%nat) by lia. destruct (en (t + n)%nat); reflexivity.
Qed.

Lemma fold_run d l s : fold_left step l s = run s (fun n => nth n l d) (length l).
Proof.
  induction l as [|i l IH] using rev_ind; [reflexivity|].
  rewrite fold_left_app, app_length, Nat.add_1_r. cbn [fold_left run]. rewrite IH.
  rewrite (app_nth2 l [i] d (Nat.le_refl _)), Nat.sub_diag. cbn [nth]. f_equal.
  assert (E : forall n, (n <= length l)%nat -> run s (fun n => nth n l d) n = run s (fun n => nth n (l ++ [i]) d) n).
  { induction n as [|n IHn]; intros Hn; [reflexivity|]. cbn [run]. rewrite IHn by lia. f_equal. rewrite app_nth1 by lia. reflexivity. }
  apply E. lia.
Qed.

Lemma estep_reset_fresh en s i : wf s -> word (dat_r i) -> rst i = true -> fresh (estep en s i).
Proof.
  intros W Hd Hr. unfold estep. rewrite Hr. pose proof (wf_step s i W Hd) as W'. destruct en.
  - pose proof (step_reset_fresh s i W Hd Hr) as (u & m & rd & E & Wf). rewrite E. cbn [reset_regs s_u s_mem s_rdata].
    exists u, m, rd. split; [reflexivity|]. rewrite <- E. exact W'.
  - eexists _, _, _. split; [reflexivity|].
    pose proof (wf_target _ W). pose proof (wf_mem _ W). pose proof (wf_rdata _ W).
    constructor; cbn; auto; unfold inw, word; lia.
Qed.
Lemma estep_wf en s i : wf s -> word (dat_r i) -> wf (estep en s i).
Proof.
  intros W Hd. destruct (rst i) eqn:R; [destruct (estep_reset_fresh en s i W Hd R) as (? & ? & ? & _ & ?); assumption|].
  unfold estep. rewrite R. destruct en; [apply wf_step; assumption|assumption].
Qed.
Lemma erun_wf en s inp t : wf s -> (forall t, word (dat_r (inp t))) -> wf (erun en s inp t).
Proof. intros W H. induction t; [assumption|]. cbn [erun]. apply estep_wf; auto. Qed.

(** ** Theorems *)
(** C70: between resets the gated core is the core that sees only the enabled cycles. *)
Theorem C70_enable : forall en s inp t n, (forall u, (t <= u < t + n)%nat -> rst (inp u) = false) ->
  let l := seen en inp t n in
  erun en s inp (t + n) = run (erun en s inp t) (fun k => nth k l (inp O)) (length l).
Proof. intros en s inp t n H. cbv zeta. rewrite erun_from by assumption. apply fold_run. Qed.

(** C70: a reset pulse works whatever the enable does, during it and afterwards: in the cycle after
    it the core is in a reset state, no request is made before five enabled cycles have passed,
    and then the first fetch, at address 0, is on the bus. *)
Theorem C70_reset : forall en s inp T n, wf s -> (forall t, word (dat_r (inp t))) ->
  rst (inp T) = true -> (forall u, (T < u < T + 1 + n)%nat -> rst (inp u) = false) ->
  fresh (erun en s inp (T + 1)) /\
  let x := erun en s inp (T + 1 + n) in let enabled := length (filter en (seq (T + 1) n)) in
  ((enabled < 5)%nat -> o_cyc x = false /\ o_stb x = false) /\
  (enabled = 5%nat ->
   o_cyc x = true /\ o_stb x = true /\ o_adr x = 0 /\ o_sel x = 15 /\ o_we x = false /\
   s_pc x = 0 /\ s_mem x 0 = 0 /\ c_mie (s_csr x) = false /\ c_meie (s_csr x) = false /\ s_mem x 42 = 0 /\
   (forall r, 1 <= r < 32 -> s_mem x r = s_mem (erun en s inp (T + 1)) r)).
Proof.
  intros en s inp T n W Hw Hr Hn.
  assert (F : fresh (erun en s inp (T + 1))).
  { rewrite Nat.add_1_r. cbn [erun]. apply estep_reset_fresh; [apply erun_wf; assumption|apply Hw|assumption]. }
  split; [exact F|]. cbv zeta.
  rewrite erun_from by (intros; apply Hn; lia).
  assert (L : length (seen en inp (T + 1) n) = length (filter en (seq (T + 1) n))) by apply map_length.
  rewrite <- L. set (l := seen en inp (T + 1) n) in *.
  assert (Hl : forall i, In i l -> rst i = false).
  { intros i Hi. apply in_map_iff in Hi. destruct Hi as (u & <- & Hu). apply filter_In in Hu. destruct Hu as [Hu _]. apply in_seq in Hu. apply Hn. lia. }
  assert (D : exists d, rst d = false) by (exists {| rst := false; ack := false; dat_r := 0; irq := false |}; reflexivity). destruct D as [d Hd].
  rewrite (fold_run d). set (f := fun k => nth k l d).
  assert (Hf : forall t, rst (f t) = false). { intros t. unfold f. destruct (nth_in_or_default t l d) as [K| ->]; [apply Hl; exact K|exact Hd]. }
  destruct (fresh_five _ f F) as (Q & A & R); [intros; apply Hf|].
  split; [intros Hlt; apply Q; exact Hlt|]. intros ->.
  revert A R. generalize (run (erun en s inp (T + 1)) f 5).
  intros x A R. pose proof (boot_boot _ F) as B.
  pose proof (fetch_shows 0 (boot_arch (erun en s inp (T + 1))) x eq_refl eq_refl eq_refl A (r_pc _ _ _ _ _ _ _ _ R)) as S0.
  destruct R, B, S0. cbn [request q_adr q_sel q_we] in *.
  split; [assumption|]. split; [assumption|]. split; [rewrite sh_adr, bo_pc; reflexivity|]. split; [assumption|]. split; [assumption|].
  split; [lia|]. split; [rewrite <- r_x by lia; assumption|]. split; [congruence|]. split; [congruence|]. split; [congruence|].
  intros r Hr'. rewrite <- r_x by lia. apply bo_x. assumption.
Qed.

(** C70: a reset while disabled leaves the register file alone. *)
Theorem C70_reset_disabled_keeps_registers : forall en s inp T, rst (inp T) = true -> en T = false ->
  s_mem (erun en s inp (T + 1)) = s_mem (erun en s inp T).
Proof. intros en s inp T R E. rewrite Nat.add_1_r. cbn [erun]. unfold estep. rewrite R, E. reflexivity. Qed.

(** ** Examples *)
(** The store of test_store_ignored_on_reset (tests/sim/test_top.py:645-701): li s1, 1; li s2, 4;
    sw s1, 0(s2), enabled every other cycle, memory answering in the enabled cycle after the request. *)
Definition ex_word (a : Z) : Z := if a =? 0 then 0x00100493 else if a =? 1 then 0x00400913 else if a =? 2 then 0x00992023 else 0x13.
Fixpoint ex_sys (R : nat) (t : nat) : state * bool :=
  match t with
  | O => (por, false)
  | S n => let (s, a) := ex_sys R n in let en := Nat.even n in
      let i := {| rst := Nat.eqb n R; ack := a; dat_r := ex_word (o_adr s); irq := false |} in
      (estep en s i, if en then o_cyc s && negb a else a)
  end.
(** Without a reset the store is requested in cycle 39.  With one in cycle 38 (enabled) or 39
    (disabled, the request just made) there is no request until the first fetch in cycle 49. *)
Example C70_store_quashed :
  (let x := fst (ex_sys 1000 39) in o_cyc x = true /\ o_we x = true /\ o_adr x = 1 /\ o_cyc (fst (ex_sys 1000 38)) = false) /\
  (forall R, In R [38; 39]%nat ->
   (forall t, In t [40; 41; 42; 43; 44; 45; 46; 47; 48]%nat -> o_cyc (fst (ex_sys R t)) = false) /\
   let x := fst (ex_sys R 49) in o_cyc x = true /\ o_we x = false /\ o_adr x = 0).
Proof.
  split; [vm_compute; repeat split|]. intros R [<-|[<-|[]]]; (split; [|vm_compute; repeat split]);
    intros t Ht; cbn [In] in Ht; repeat (destruct Ht as [<-|Ht]; [vm_compute; reflexivity|]); destruct Ht.
Qed.
Lemma destruct_rev {A} (l : list A) : l = [] \/ exists l' x, l = l' ++ [x].
Proof. induction l as [|x l _] using rev_ind; [left; reflexivity|right; eauto]. Qed.
(** An acknowledgement in a disabled cycle is lost: a slave outside the gated domain that answers
    only in odd cycles leaves the first fetch pending for ever; one that answers in even cycles does not. *)
Definition ex_ack (p : nat -> bool) (t : nat) : input := {| rst := false; ack := p t; dat_r := 0x13; irq := false |}.
Example C70_ack_lost :
  (forall t, (9 <= t)%nat -> o_cyc (erun Nat.even por (ex_ack Nat.odd) t) = true) /\
  o_cyc (erun Nat.even por (ex_ack Nat.even) 11) = false.
Proof.
  split; [|vm_compute; reflexivity].
  set (i0 := {| rst := false; ack := false; dat_r := 0x13; irq := false |}).
  assert (K : ok por (fun _ => i0)).
  { apply bus_ok_ok. constructor; [exact por_fresh| |intros t _ A; discriminate A].
    constructor; intros t; [reflexivity|unfold word; cbn; lia]. }
  assert (Up : forall n, o_cyc (run por (fun _ => i0) (5 + n)) = true).
  { induction n as [|n IH]; [vm_compute; reflexivity|]. rewrite Nat.add_succ_r.
    exact (proj1 (C05_request_held por (fun _ => i0) K (5 + n)%nat IH eq_refl)). }
  assert (Sn : forall n l, (forall x, In x l -> Nat.even x = true) -> length l = n -> fold_left step (map (ex_ack Nat.odd) l) por = run por (fun _ => i0) n).
  { induction n as [|n IH]; intros l Hl Ln; [destruct l; [reflexivity|discriminate]|].
    destruct (destruct_rev l) as [->|(l' & x & ->)]; [discriminate|].
    rewrite app_length, Nat.add_1_r in Ln. injection Ln as Ln. rewrite map_app, fold_left_app. cbn [map fold_left run].
    rewrite IH by (try assumption; intros y Hy; apply Hl; apply in_or_app; left; exact Hy). f_equal.
    unfold ex_ack, i0. rewrite <- Nat.negb_even, (Hl x) by (apply in_or_app; right; left; reflexivity). reflexivity. }
  intros t Ht. pose proof (erun_from Nat.even por (ex_ack Nat.odd) 0 t ltac:(intros; reflexivity)) as E. cbn [erun Nat.add] in E. rewrite E. unfold seen.
  assert (Sp : exists n, length (filter Nat.even (seq 0 t)) = (5 + n)%nat).
  { replace t with (9 + (t - 9))%nat by lia. rewrite seq_app, filter_app, app_length. eexists. reflexivity. }
  destruct Sp as [n Hn].
  rewrite (Sn (5 + n)%nat); [apply Up| |exact Hn]. intros x Hx. apply filter_In in Hx. apply Hx.
Qed.
(** The hypotheses of [C70_reset] are met by that run (reset in cycle 38, enabled every other
    cycle), with five enabled cycles after ten. *)
Example C70_reset_applies : exists inp, (forall t, word (dat_r (inp t))) /\ rst (inp 38%nat) = true /\
  (forall u, (38 < u < 38 + 1 + 10)%nat -> rst (inp u) = false) /\ length (filter Nat.even (seq (38 + 1) 10)) = 5%nat /\ wf por.
Proof.
  exists (fun t => {| rst := Nat.eqb t 38; ack := false; dat_r := 0x13; irq := false |}).
  split; [intros; cbn; unfold word; lia|]. split; [reflexivity|]. split; [|split; [reflexivity|exact por_wf]].
  intros u Hu. cbn. apply Nat.eqb_neq. lia.
Qed.

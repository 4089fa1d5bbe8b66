(** * The demo firmware shows the primes on the LEDs: C56 *)
From Coq Require Import ZArith Znumtheory Lia Bool List.
From Verif Require Import Bits Ucode Cpu Isa Timed BitLemmas Wf Sym Main SocMem Uart Periph Soc ProgGen SocProg.
From Verif Require Demo.
Import ListNotations.
Open Scope Z_scope.

(** The program stores to byte address 0x0200_0000 only. *)
Definition the_led (adr : Z) : bool := adr =? 2 ^ 23.

(** ** Symbolic execution: the program counter is known, registers are given by a list *)
Definition regs := list (Z * Z).
Fixpoint get (g : regs) (r : Z) : option Z :=
  match g with [] => None | (r', v) :: q => if r' =? r then Some v else get q r end.
Definition src (g : regs) (r : Z) : option Z := if r =? 0 then Some 0 else get g r.
Fixpoint set (g : regs) (r v : Z) : regs :=
  match g with [] => [] | (r', v') :: q => (r', if r' =? r then v else v') :: set q r v end.
Record holds (a : arch) (p : Z) (g : regs) : Prop := {
  h_pc : pc a = p; h_mie : mie a = false; h_g : forall r v, In (r, v) g -> r <> 0 /\ xr a r = v }.
Definition goto (p : Z) (g : regs) : option (Z * regs * list Z) := if p mod 4 =? 0 then Some (p, g, []) else None.
Definition xstep (i : instr) (p : Z) (g : regs) : option (Z * regs * list Z) :=
  let n := (p + 4) mod 2 ^ 32 in
  match i with
  | Lui rd imm => Some (n, set g rd imm, [])
  | Auipc rd imm => Some (n, set g rd ((p + imm) mod 2 ^ 32), [])
  | Jal rd off => goto ((p + off) mod 2 ^ 32) (set g rd n)
  | Jalr rd r1 off => match src g r1 with Some v => goto (2 * (((v + off) mod 2 ^ 32) / 2)) (set g rd n) | None => None end
  | Branch c r1 r2 off => match src g r1, src g r2 with
      | Some v1, Some v2 => if cmp c v1 v2 then goto ((p + off) mod 2 ^ 32) g else Some (n, g, [])
      | _, _ => None end
  | OpImm f rd r1 imm => match src g r1 with Some v => Some (n, set g rd (alu f v (imm mod 2 ^ 32)), []) | None => None end
  | OpReg f rd r1 r2 => match src g r1, src g r2 with Some v1, Some v2 => Some (n, set g rd (alu f v1 v2), []) | _, _ => None end
  | Store Word r1 r2 off => match src g r1, src g r2 with
      | Some v1, Some v2 => let ea := (v1 + off) mod 2 ^ 32 in
          if ea =? 0x2000000 then Some (n, g, [v2 mod 2 ^ 32 mod 256]) else None
      | _, _ => None end
  | _ => None
  end.
Lemma get_in g r v : get g r = Some v -> In (r, v) g.
Proof. induction g as [|[r' v'] q IH]; [discriminate|]. cbn [get]. destruct (Z.eqb_spec r' r) as [->|]; [intros [= ->]; left; reflexivity|]. right. apply IH. assumption. Qed.
Lemma src_ok a p g r v : holds a p g -> src g r = Some v -> rd_x a r = v.
Proof.
  intros H. unfold src, rd_x. destruct (r =? 0); [congruence|]. intros G. apply get_in in G. destruct (h_g _ _ _ H _ _ G). assumption.
Qed.
Lemma set_in g rd v r w : In (r, w) (set g rd v) -> (r = rd /\ w = v /\ exists w', In (r, w') g) \/ (r <> rd /\ In (r, w) g).
Proof.
  induction g as [|[r' v'] q IH]; [contradiction|]. cbn [set]. intros [E|E].
  - injection E as E1 E2. subst r w. destruct (Z.eqb_spec r' rd) as [->|]; [left; repeat split; exists v'; left; reflexivity|right; split; [assumption|left; reflexivity]].
  - destruct (IH E) as [(? & ? & w' & ?)|[? ?]]; [left; repeat split; try assumption; exists w'; right; assumption|right; split; [assumption|right; assumption]].
Qed.
Lemma holds_wr a p g rd v q : holds a p g -> holds (set_pc (wr_x a rd v) q) q (set g rd v).
Proof.
  intros [Hp Hm Hg]. constructor; [reflexivity|unfold wr_x; destruct (rd =? 0); exact Hm|].
  intros r w I. apply set_in in I. destruct I as [(-> & -> & w' & I)|[N I]].
  - destruct (Hg _ _ I) as [Nz _]. split; [assumption|]. unfold wr_x. rewrite (proj2 (Z.eqb_neq rd 0) Nz). cbn [set_pc set_x xr]. rewrite Z.eqb_refl. reflexivity.
  - destruct (Hg _ _ I) as [Nz E]. split; [assumption|]. unfold wr_x. destruct (rd =? 0); [exact E|]. cbn [set_pc set_x xr]. rewrite (proj2 (Z.eqb_neq r rd) N). exact E.
Qed.
Lemma holds_pc a p g q : holds a p g -> holds (set_pc a q) q g.
Proof. intros [Hp Hm Hg]. constructor; [reflexivity|exact Hm|exact Hg]. Qed.
Lemma goto_ok p g p' g' l : goto p g = Some (p', g', l) -> p mod 4 =? 0 = true /\ p' = p /\ g' = g /\ l = [].
Proof. unfold goto. destruct (p mod 4 =? 0); [|discriminate]. intros [= <- <- <-]. auto. Qed.
Lemma xstep_ok code a p g i p' g' l : holds a p g -> code p = Some i -> xstep i p g = Some (p', g', l) ->
  exists b, pstep the_led code a = Some (b, l) /\ holds b p' g'.
Proof.
  intros H Ci X. unfold pstep. rewrite (h_pc _ _ _ H), Ci. unfold int_enabled. rewrite (h_mie _ _ _ H). cbn [andb orb].
  pose proof (h_pc _ _ _ H) as Hp.
  destruct i; cbn [xstep] in X; try discriminate; cbn [is_csr exec].
  - injection X as <- <- <-. eexists. split; [reflexivity|]. unfold advance. rewrite <- Hp. replace (next_pc (wr_x a rd imm)) with ((pc a + 4) mod 2 ^ 32) by (unfold wr_x, next_pc; destruct (rd =? 0); reflexivity). rewrite Hp. eapply holds_wr; eassumption.
  - injection X as <- <- <-. eexists. split; [reflexivity|]. unfold advance. set (v := (pc a + imm) mod 2 ^ 32). replace (next_pc (wr_x a rd v)) with ((p + 4) mod 2 ^ 32) by (rewrite <- Hp; unfold wr_x, next_pc; destruct (rd =? 0); reflexivity).
    subst v. rewrite Hp. eapply holds_wr; eassumption.
  - apply goto_ok in X. destruct X as (E & -> & -> & ->). eexists. split; [reflexivity|]. unfold jump. rewrite Hp, E. unfold next_pc. rewrite Hp. eapply holds_wr; eassumption.
  - destruct (src g rs1) as [v|] eqn:G; [|discriminate]. apply goto_ok in X. destruct X as (E & -> & -> & ->). rewrite (src_ok _ _ _ _ _ H G). eexists. split; [reflexivity|]. unfold jump. rewrite E. unfold next_pc. rewrite Hp. eapply holds_wr; eassumption.
  - destruct (src g rs1) as [v1|] eqn:G1; [|discriminate]. destruct (src g rs2) as [v2|] eqn:G2; [|discriminate]. rewrite (src_ok _ _ _ _ _ H G1), (src_ok _ _ _ _ _ H G2).
    destruct (cmp c v1 v2).
    + apply goto_ok in X. destruct X as (E & -> & -> & ->). eexists. split; [reflexivity|]. unfold jump. rewrite Hp, E. eapply holds_pc; eassumption.
    + injection X as <- <- <-. eexists. split; [reflexivity|]. unfold advance, next_pc. rewrite Hp. eapply holds_pc; eassumption.
  - destruct sz; try discriminate. destruct (src g rs1) as [v1|] eqn:G1; [|discriminate]. destruct (src g rs2) as [v2|] eqn:G2; [|discriminate]. rewrite (src_ok _ _ _ _ _ H G1), (src_ok _ _ _ _ _ H G2).
    set (ea := (v1 + off) mod 2 ^ 32) in *. destruct (Z.eqb_spec ea 0x2000000) as [Ea|]; [|discriminate]. injection X as <- <- <-. assert (Al : ea mod 4 = 0) by (rewrite Ea; reflexivity). assert (E1 : the_led (ea / 4) = true) by (rewrite Ea; reflexivity).
    unfold aligned. cbn [bytes]. rewrite (proj2 (Z.eqb_eq _ _) Al). cbn [q_we q_adr q_sel q_dat]. rewrite E1. unfold lanes. rewrite Al. cbn [bytes]. change (Z.testbit ((2 ^ 4 - 1) * 2 ^ 0) 0) with true. cbn [andb].
    eexists. split; [unfold store_data; rewrite Al; cbn [bytes]; change (8 * 0) with 0; change (8 * 4) with 32; rewrite Z.pow_0_r, Z.mul_1_r; reflexivity|]. unfold advance, next_pc. rewrite Hp. eapply holds_pc; eassumption.
  - destruct (src g rs1) as [v1|] eqn:G1; [|discriminate]. injection X as <- <- <-. rewrite (src_ok _ _ _ _ _ H G1). eexists. split; [reflexivity|]. unfold advance. set (v := alu f v1 (imm mod 2 ^ 32)). replace (next_pc (wr_x a rd v)) with ((p + 4) mod 2 ^ 32) by (rewrite <- Hp; unfold wr_x, next_pc; destruct (rd =? 0); reflexivity).
    eapply holds_wr; eassumption.
  - destruct (src g rs1) as [v1|] eqn:G1; [|discriminate]. destruct (src g rs2) as [v2|] eqn:G2; [|discriminate]. injection X as <- <- <-. rewrite (src_ok _ _ _ _ _ H G1), (src_ok _ _ _ _ _ H G2). eexists. split; [reflexivity|]. unfold advance. set (v := alu f v1 v2). replace (next_pc (wr_x a rd v)) with ((p + 4) mod 2 ^ 32) by (rewrite <- Hp; unfold wr_x, next_pc; destruct (rd =? 0); reflexivity).
    eapply holds_wr; eassumption.
Qed.

(** ** The program *)
Definition demo_code (a : Z) : option instr := if (a mod 4 =? 0) && (0 <=? a) then nth_error Demo.demo (Z.to_nat (a / 4)) else None.
(** From [p] with registers [g] the program gets to [p'] with [g'], storing [l]. *)
Definition go (p : Z) (g : regs) (p' : Z) (g' : regs) (l : list Z) : Prop :=
  forall a, holds a p g -> exists n b, psteps the_led demo_code (S n) a = Some (b, l) /\ holds b p' g'.
Lemma go_trans p g p1 g1 p2 g2 l1 l2 l : go p g p1 g1 l1 -> go p1 g1 p2 g2 l2 -> l = l1 ++ l2 -> go p g p2 g2 l.
Proof.
  intros A B -> a H. destruct (A a H) as (n & b & E & H1). destruct (B b H1) as (m & c & E' & H2). exists (n + S m)%nat, c. split; [|assumption].
  change (S (n + S m)) with (S n + S m)%nat. eapply psteps_app; eassumption.
Qed.
Lemma go_seq p1 g1 p g p2 g2 l : go p g p1 g1 [] -> go p1 g1 p2 g2 l -> go p g p2 g2 l.
Proof. intros A B. eapply go_trans; [exact A|exact B|reflexivity]. Qed.
Lemma go_step p g i p' g' l : demo_code p = Some i -> xstep i p g = Some (p', g', l) -> go p g p' g' l.
Proof.
  intros Ci X a H. destruct (xstep_ok demo_code a p g i p' g' l H Ci X) as (b & E & H'). exists 0%nat, b. split; [|assumption]. cbn [psteps]. rewrite E, app_nil_r. reflexivity.
Qed.
Definition G (ra t0 s0 s1 a0 a1 s2 s3 : Z) : regs := [(1, ra); (5, t0); (8, s0); (9, s1); (10, a0); (11, a1); (18, s2); (19, s3)].

(** Evaluate one instruction, leaving arithmetic on register values alone. *)
Ltac ev := cbn [xstep src get set G Z.eqb Pos.eqb andb].
Ltac small := repeat match goal with |- context [(?a) mod (2 ^ 32)] => rewrite (Z.mod_small a (2 ^ 32)) by lia end.
Ltac one := eapply go_step; [reflexivity|ev; reflexivity].

Lemma s32_small v : 0 <= v < 2 ^ 31 -> s32 v = v.
Proof. intros H. unfold s32, sext. change (32 - 1) with 31. destruct (Z.ltb_spec v (2 ^ 31)); lia. Qed.
Lemma s32_neg v : - 2 ^ 31 <= v < 0 -> s32 (v mod 2 ^ 32) = v.
Proof.
  intros H. unfold s32, sext. change (32 - 1) with 31. rewrite <- (Z.mod_add v 1 (2 ^ 32)) by lia. rewrite Z.mod_small by lia. destruct (Z.ltb_spec (v + 1 * 2 ^ 32) (2 ^ 31)); lia.
Qed.

(** prime? (attosoc.py:972-977): returns to [ra] with a0 = 0 if a1 divides a0. *)
Lemma go_submore ra s0 s1 a1 s2 s3 : ra mod 4 = 0 -> 0 <= ra < 2 ^ 31 -> 0 < a1 < 2 ^ 30 ->
  forall n a0, (Z.to_nat a0 <= n)%nat -> 0 < a0 < 2 ^ 30 ->
  exists r, go 80 (G ra 1 s0 s1 a0 a1 s2 s3) ra (G ra 1 s0 s1 r a1 s2 s3) [] /\ (r = 0 <-> (a1 | a0)).
Proof.
  intros Al Hra H1. induction n as [|n IH]; intros a0 Hn H0; [lia|].
  assert (Sub : go 80 (G ra 1 s0 s1 a0 a1 s2 s3) 84 (G ra 1 s0 s1 ((a0 - a1) mod 2 ^ 32) a1 s2 s3) []) by one.
  destruct (Z.lt_ge_cases a1 a0).
  - destruct (IH (a0 - a1)) as (r & Go & Iff); [lia|lia|]. exists r. split.
    + eapply go_seq; [exact Sub|]. eapply go_seq; [|exact Go].
      eapply go_step; [reflexivity|]. ev. rewrite (Z.mod_small (a0 - a1)) by lia. cbn [cmp]. rewrite !s32_small by lia. destruct (Z.ltb_spec (a0 - a1) 1); [lia|]. reflexivity.
    + rewrite Iff. split; intros D; [replace a0 with ((a0 - a1) + a1) by lia; apply Z.divide_add_r; [assumption|apply Z.divide_refl]|apply Z.divide_sub_r; [assumption|apply Z.divide_refl]].
  - exists ((a0 - a1) mod 2 ^ 32). split.
    + eapply go_seq; [exact Sub|]. eapply (go_seq 88).
      * eapply go_step; [reflexivity|]. ev. cbn [cmp]. rewrite (s32_small 1) by lia.
        assert (Q : s32 ((a0 - a1) mod 2 ^ 32) = a0 - a1). { destruct (Z.eq_dec a0 a1); [subst; rewrite Z.sub_diag; reflexivity|apply s32_neg; lia]. }
        rewrite Q. destruct (Z.ltb_spec (a0 - a1) 1); [|lia]. reflexivity.
      * eapply go_step; [reflexivity|]. ev. rewrite Z.add_0_r, (Z.mod_small ra) by lia.
        assert (E : 2 * (ra / 2) = ra). { pose proof (Z.div_mod ra 4 ltac:(lia)). replace ra with ((2 * (ra / 4)) * 2) by lia. rewrite Z.div_mul by lia. lia. }
        rewrite E. unfold goto. rewrite Al. reflexivity.
    + split; intros Q.
      * assert (a0 = a1). { destruct (Z.eq_dec a0 a1); [assumption|]. rewrite <- (Z.mod_add _ 1) in Q by lia. rewrite Z.mod_small in Q by lia. lia. } subst. apply Z.divide_refl.
      * assert (a0 = a1). { apply Z.divide_pos_le in Q; lia. } subst. rewrite Z.sub_diag. reflexivity.
Qed.
Lemma go_prime t0 s0 s1 a0 a1 s2 s3 ra : ra mod 4 = 0 -> 0 <= ra < 2 ^ 31 -> 0 < a1 < 2 ^ 30 -> 0 < a0 < 2 ^ 30 ->
  exists r, go 76 (G ra t0 s0 s1 a0 a1 s2 s3) ra (G ra 1 s0 s1 r a1 s2 s3) [] /\ (r = 0 <-> (a1 | a0)).
Proof.
  intros Al Hra H1 H0. destruct (go_submore ra s0 s1 a1 s2 s3 Al Hra H1 (Z.to_nat a0) a0 (le_n _) H0) as (r & Go & Iff). exists r. split; [|assumption].
  eapply go_seq; [|exact Go]. one.
Qed.
(** delay (attosoc.py:978-983). *)
Lemma go_countdown ra s0 s1 a0 a1 s2 s3 : ra mod 4 = 0 -> 0 <= ra < 2 ^ 31 ->
  forall n t0, (Z.to_nat t0 = S n) -> t0 < 2 ^ 31 -> go 100 (G ra t0 s0 s1 a0 a1 s2 s3) ra (G ra 0 s0 s1 a0 a1 s2 s3) [].
Proof.
  intros Al Hra. induction n as [|n IH]; intros t0 Hn H0.
  - assert (t0 = 1) by lia. subst. eapply (go_seq 104); [one|]. eapply (go_seq 108); [one|].
    eapply go_step; [reflexivity|]. ev. rewrite Z.add_0_r, (Z.mod_small ra) by lia.
    assert (E : 2 * (ra / 2) = ra). { pose proof (Z.div_mod ra 4 ltac:(lia)). replace ra with ((2 * (ra / 4)) * 2) by lia. rewrite Z.div_mul by lia. lia. }
    rewrite E. unfold goto. rewrite Al. reflexivity.
  - assert (E : (t0 + -1 mod 2 ^ 32) mod 2 ^ 32 = t0 - 1) by (rewrite Zplus_mod_idemp_r; apply Z.mod_small; lia).
    eapply (go_seq 104 (G ra (t0 - 1) s0 s1 a0 a1 s2 s3)); [eapply go_step; [reflexivity|ev; cbn [alu]; rewrite E; reflexivity]|].
    eapply (go_seq 100); [|apply (IH (t0 - 1)); lia]. eapply go_step; [reflexivity|]. ev. cbn [cmp]. destruct (Z.eqb_spec (t0 - 1) 0); [lia|]. reflexivity.
Qed.
Lemma go_delay ra t0 s0 s1 a0 a1 s2 s3 : ra mod 4 = 0 -> 0 <= ra < 2 ^ 31 -> go 92 (G ra t0 s0 s1 a0 a1 s2 s3) ra (G ra 0 s0 s1 a0 a1 s2 s3) [].
Proof.
  intros Al Hra. eapply (go_seq 96); [one|]. eapply (go_seq 100 (G ra 360000 s0 s1 a0 a1 s2 s3)); [one|].
  apply (go_countdown ra s0 s1 a0 a1 s2 s3 Al Hra (Z.to_nat 359999)); lia.
Qed.

(** The trial divisions (attosoc.py:959-971): from next_int with s0 = c and s2 = d. *)
Definition OUT (c : Z) (g : regs) : Prop := exists ra t0 a0 a1 s2, g = G ra t0 c 0x2000000 a0 a1 s2 256.
Lemma go_divide c : 2 <= c < 256 -> forall n d ra t0 a0 a1, 2 <= d <= c -> (Z.to_nat (c - d) = n) ->
  (forall e, 2 <= e < d -> ~ (e | c)) ->
  exists g, OUT c g /\
  ((forall e, 2 <= e < c -> ~ (e | c)) /\ go 28 (G ra t0 c 0x2000000 a0 a1 d 256) 12 g [c] \/
   (exists e, 2 <= e < c /\ (e | c)) /\ go 28 (G ra t0 c 0x2000000 a0 a1 d 256) 12 g []).
Proof.
  intros Hc. induction n as [|n IH]; intros d ra t0 a0 a1 Hd Hn Nd.
  - assert (d = c) by lia. subst d. exists (G 72 0 c 0x2000000 a0 a1 c 256). split; [repeat eexists|]. left. split; [assumption|].
    eapply (go_seq 60). { eapply go_step; [reflexivity|]. ev. cbn [cmp]. rewrite !s32_small by lia. rewrite Z.ltb_irrefl. reflexivity. }
    eapply (go_trans _ _ 64 _ _ _ [c] []); [| |reflexivity].
    { eapply go_step; [reflexivity|]. ev. rewrite (Z.mod_small c (2 ^ 32)), (Z.mod_small c 256) by lia. reflexivity. }
    eapply (go_seq 68); [one|]. eapply (go_seq 92); [one|]. eapply (go_seq 72); [apply go_delay; vm_compute; intuition congruence|]. one.
  - assert (d < c) by lia.
    assert (P1 : go 28 (G ra t0 c 0x2000000 a0 a1 d 256) 76 (G 48 t0 c 0x2000000 c d d 256) []).
    { eapply (go_seq 32). { eapply go_step; [reflexivity|]. ev. cbn [cmp]. rewrite !s32_small by lia. destruct (Z.ltb_spec d c); [|lia]. reflexivity. }
      eapply (go_seq 36 (G ra t0 c 0x2000000 c a1 d 256)). { eapply go_step; [reflexivity|]. ev. cbn [alu]. rewrite Z.mod_0_l, Z.add_0_r, (Z.mod_small c) by lia. reflexivity. }
      eapply (go_seq 40 (G ra t0 c 0x2000000 c d d 256)). { eapply go_step; [reflexivity|]. ev. cbn [alu]. rewrite Z.mod_0_l, Z.add_0_r, (Z.mod_small d) by lia. reflexivity. }
      eapply (go_seq 44); [one|]. one. }
    destruct (go_prime t0 c 0x2000000 c d d 256 48) as (r & P2 & Iff); [reflexivity|lia|lia|lia|].
    destruct (Z.eq_dec r 0) as [R|R].
    + subst r. exists (G 48 1 c 0x2000000 0 d d 256). split; [repeat eexists|]. right. split; [exists d; split; [lia|apply Iff; reflexivity]|].
      eapply go_seq; [exact P1|]. eapply go_seq; [exact P2|]. eapply (go_seq 72); [one|]. one.
    + assert (Nd' : forall e, 2 <= e < d + 1 -> ~ (e | c)).
      { intros e He. destruct (Z.eq_dec e d) as [->|]; [rewrite <- Iff; assumption|apply Nd; lia]. }
      destruct (IH (d + 1) 48 1 r d ltac:(lia) ltac:(lia) Nd') as (g & Og & Or). exists g. split; [assumption|].
      assert (P3 : go 28 (G ra t0 c 0x2000000 a0 a1 d 256) 28 (G 48 1 c 0x2000000 r d (d + 1) 256) []).
      { eapply go_seq; [exact P1|]. eapply go_seq; [exact P2|].
        eapply (go_seq 52). { eapply go_step; [reflexivity|]. ev. cbn [cmp]. rewrite (proj2 (Z.eqb_neq r 0) R). reflexivity. }
        eapply (go_seq 56 (G 48 1 c 0x2000000 r d (d + 1) 256)). { eapply go_step; [reflexivity|]. ev. cbn [alu]. rewrite (Z.mod_small 1), (Z.mod_small (d + 1)) by lia. reflexivity. }
        one. }
      destruct Or as [[Pr Go]|[Co Go]]; [left|right]; (split; [assumption|]); eapply go_seq; eassumption.
Qed.
(** One round of the outer loop: the next candidate, shown if it is prime. *)
Definition next_candidate (c : Z) : Z := if c + 1 <? 256 then c + 1 else 2.
Lemma go_outer c g : 2 <= c < 256 -> OUT c g -> let d := next_candidate c in
  exists g', OUT d g' /\ (prime d /\ go 12 g 12 g' [d] \/ ~ prime d /\ go 12 g 12 g' []).
Proof.
  intros Hc (ra & t0 & a0 & a1 & s2 & ->) d.
  assert (Hd : 2 <= d < 256) by (unfold d, next_candidate; destruct (Z.ltb_spec (c + 1) 256); lia).
  assert (P : go 12 (G ra t0 c 0x2000000 a0 a1 s2 256) 28 (G ra t0 d 0x2000000 a0 a1 2 256) []).
  { eapply (go_seq 16 (G ra t0 (c + 1) 0x2000000 a0 a1 s2 256)). { eapply go_step; [reflexivity|]. ev. cbn [alu]. rewrite (Z.mod_small 1), (Z.mod_small (c + 1)) by lia. reflexivity. }
    unfold d, next_candidate. destruct (Z.ltb_spec (c + 1) 256).
    - eapply (go_seq 24). { eapply go_step; [reflexivity|]. ev. cbn [cmp]. rewrite !s32_small by lia. destruct (Z.ltb_spec (c + 1) 256); [|lia]. reflexivity. }
      one.
    - eapply (go_seq 20). { eapply go_step; [reflexivity|]. ev. cbn [cmp]. rewrite !s32_small by lia. destruct (Z.ltb_spec (c + 1) 256); [lia|]. reflexivity. }
      eapply (go_seq 24); [one|]. one. }
  destruct (go_divide d Hd (Z.to_nat (d - 2)) 2 ra t0 a0 a1) as (g & Og & Or); [lia|reflexivity|intros; lia|].
  exists g. split; [assumption|]. destruct Or as [[Pr Go]|[(e & He & De) Go]]; [left|right]; (split; [|eapply go_seq; eassumption]).
  - apply prime_alt. split; [lia|]. intros n Hn. apply Pr. lia.
  - intros Q. apply prime_alt in Q. destruct Q as [_ Q]. apply (Q e); [lia|assumption].
Qed.

(** ** The sequence of primes below 256, starting over at 2 *)
Definition next_prime (p q : Z) : Prop :=
  prime q /\ (p < q < 256 /\ (forall r, p < r < q -> ~ prime r) \/ q = 2 /\ (forall r, p < r < 256 -> ~ prime r)).

Definition is_prime (q : Z) : bool := (2 <=? q) && forallb (fun e => negb (q mod e =? 0)) (map Z.of_nat (seq 2 (Z.to_nat q - 2))).
Lemma is_prime_ok q : is_prime q = true <-> prime q.
Proof.
  unfold is_prime. rewrite andb_true_iff, forallb_forall, Z.leb_le. split.
  - intros [H F]. apply prime_alt. split; [lia|]. intros e He De. specialize (F e). apply Z.mod_divide in De; [|lia]. rewrite De in F.
    discriminate F. apply in_map_iff. exists (Z.to_nat e). split; [lia|]. apply in_seq. lia.
  - intros P. apply prime_alt in P. destruct P as [H P]. split; [lia|]. intros e I. apply in_map_iff in I. destruct I as (j & <- & I). apply in_seq in I.
    apply negb_true_iff, Z.eqb_neq. intros E. apply (P (Z.of_nat j)); [lia|]. apply Z.mod_divide; lia.
Qed.
Definition nextp (p : Z) : Z :=
  match find is_prime (map Z.of_nat (seq (Z.to_nat (p + 1)) (Z.to_nat (255 - p)))) with Some q => q | None => 2 end.
Lemma find_seq f n : forall a, match find f (map Z.of_nat (seq a n)) with
  | Some q => f q = true /\ Z.of_nat a <= q < Z.of_nat (a + n) /\ forall r, Z.of_nat a <= r < q -> f r = false
  | None => forall r, Z.of_nat a <= r < Z.of_nat (a + n) -> f r = false end.
Proof.
  induction n as [|n IH]; intros a; cbn [seq map find]; [intros; lia|]. destruct (f (Z.of_nat a)) eqn:E; [split; [assumption|split; intros; lia]|].
  specialize (IH (S a)). destruct (find _ _) as [q|].
  - destruct IH as (H1 & H2 & H3). split; [assumption|]. split; [lia|]. intros r Hr. destruct (Z.eq_dec r (Z.of_nat a)) as [->|]; [assumption|apply H3; lia].
  - intros r Hr. destruct (Z.eq_dec r (Z.of_nat a)) as [->|]; [assumption|apply IH; lia].
Qed.
Lemma nextp_ok p : 2 <= p < 256 -> next_prime p (nextp p).
Proof.
  intros H. unfold nextp. pose proof (find_seq is_prime (Z.to_nat (255 - p)) (Z.to_nat (p + 1))) as F. destruct (find _ _) as [q|].
  - destruct F as (F1 & F2 & F3). split; [apply is_prime_ok; assumption|]. left. split; [lia|]. intros r Hr Q. apply is_prime_ok in Q. rewrite F3 in Q by lia. discriminate.
  - split; [apply prime_2|]. right. split; [reflexivity|]. intros r Hr Q. apply is_prime_ok in Q. rewrite F in Q by lia. discriminate.
Qed.
Lemma next_prime_unique p q q' : next_prime p q -> next_prime p q' -> q = q'.
Proof.
  intros [P H] [P' H']. destruct H as [[H1 H2]|[H1 H2]], H' as [[H1' H2']|[H1' H2']].
  - destruct (Z.lt_trichotomy q q') as [L|[E|L]]; [|assumption|]; exfalso; [apply (H2' q)|apply (H2 q')]; try assumption; lia.
  - exfalso. apply (H2' q); assumption.
  - exfalso. apply (H2 q'); assumption.
  - congruence.
Qed.
Fixpoint pseq (n : nat) : Z := match n with O => 2 | S m => nextp (pseq m) end.
Lemma pseq_range n : 2 <= pseq n < 256.
Proof. induction n as [|n IH]; cbn [pseq]; [lia|]. destruct (nextp_ok _ IH) as [P [[H _]|[-> _]]]; lia. Qed.
Lemma pseq_next n : next_prime (pseq n) (pseq (S n)). Proof. apply nextp_ok, pseq_range. Qed.
Lemma pseq_differ n : pseq n <> pseq (S n).
Proof.
  destruct (pseq_next n) as [_ [[H _]|[E H]]]; [lia|]. intros Q. rewrite E in Q. apply (H 3); [lia|]. apply prime_3.
Qed.
Definition first_primes (n : nat) : list Z := map pseq (seq 1 n).
Lemma first_S n : first_primes (S n) = first_primes n ++ [pseq (S n)].
Proof. unfold first_primes. rewrite seq_S, map_app. reflexivity. Qed.
Lemma noted n : fold_left note (first_primes n) [0] = 0 :: first_primes n.
Proof.
  assert (L : forall n, last (0 :: first_primes n) 0 = match n with O => 0 | _ => pseq n end).
  { intros [|m]; [reflexivity|]. rewrite first_S, app_comm_cons. apply last_last. }
  induction n as [|n IH]; [reflexivity|]. rewrite first_S, fold_left_app, IH. cbn [fold_left]. unfold note. rewrite L.
  destruct (Z.eqb_spec (match n with O => 0 | _ => pseq n end) (pseq (S n))) as [E|]; [|reflexivity].
  exfalso. destruct n; [pose proof (pseq_range 1); lia|]. apply (pseq_differ (S n)). exact E.
Qed.

(** ** The run of the program *)
Lemma round a n c g : holds a 12 g -> OUT c g -> 2 <= c < 256 -> pseq n <= c -> (forall r, pseq n < r <= c -> ~ prime r) ->
  exists m b l, psteps the_led demo_code (S m) a = Some (b, l) /\
  ((l = [pseq (S n)] /\ exists g', holds b 12 g' /\ OUT (pseq (S n)) g') \/ (l = [] /\ c < 255 /\ exists g', holds b 12 g' /\ OUT (c + 1) g' /\ ~ prime (c + 1))).
Proof.
  intros H O Hc Hp Np. destruct (go_outer c g Hc O) as (g' & O' & Or). unfold next_candidate in O', Or.
  destruct (Z.ltb_spec (c + 1) 256) as [Lt|Ge].
  - destruct Or as [[P Go]|[P Go]]; destruct (Go a H) as (m & b & E & H').
    + exists m, b, [c + 1]. split; [assumption|]. left.
      assert (Q : c + 1 = pseq (S n)). { eapply next_prime_unique; [|apply pseq_next]. split; [assumption|]. left. split; [lia|]. intros r Hr. apply Np. lia. }
      rewrite <- Q. split; [reflexivity|]. exists g'. split; assumption.
    + exists m, b, []. split; [assumption|]. right. split; [reflexivity|]. split; [lia|]. exists g'. auto.
  - destruct Or as [[P Go]|[P Go]]; [|exfalso; apply P; apply prime_2]. destruct (Go a H) as (m & b & E & H'). exists m, b, [2]. split; [assumption|]. left.
    assert (Q : 2 = pseq (S n)). { eapply next_prime_unique; [|apply pseq_next]. split; [assumption|]. right. split; [reflexivity|]. intros r Hr. apply Np. lia. }
    rewrite <- Q. split; [reflexivity|]. exists g'. split; assumption.
Qed.
Lemma show_next : forall j a n c g, (Z.to_nat (256 - c) <= j)%nat -> holds a 12 g -> OUT c g -> 2 <= c < 256 -> pseq n <= c -> (forall r, pseq n < r <= c -> ~ prime r) ->
  exists m b g', psteps the_led demo_code (S m) a = Some (b, [pseq (S n)]) /\ holds b 12 g' /\ OUT (pseq (S n)) g'.
Proof.
  induction j as [|j IH]; intros a n c g Hj H O Hc Hp Np; [lia|].
  destruct (round a n c g H O Hc Hp Np) as (m & b & l & E & [(-> & g' & H' & O')|(-> & Lt & g' & H' & O' & P')]); [exists m, b, g'; auto|].
  destruct (IH b n (c + 1) g' ltac:(lia) H' O' ltac:(lia) ltac:(lia)) as (m2 & b2 & g2 & E2 & H2 & O2).
  { intros r Hr. destruct (Z.eq_dec r (c + 1)) as [->|]; [assumption|apply Np; lia]. }
  exists (m + S m2)%nat, b2, g2. split; [|auto]. change (S (m + S m2)) with (S m + S m2)%nat. apply (psteps_app the_led demo_code (S m) a b [] (S m2) b2 _ E E2).
Qed.
Lemma boot_go s : exists m b g, psteps the_led demo_code m (boot_arch s) = Some (b, []) /\ holds b 12 g /\ OUT 2 g.
Proof.
  set (x := xr (boot_arch s)).
  assert (H0 : holds (boot_arch s) 0 (G (x 1) (x 5) (x 8) (x 9) (x 10) (x 11) (x 18) (x 19))).
  { constructor; [reflexivity|reflexivity|]. intros r v I. unfold G in I. cbn [In] in I. repeat (destruct I as [I|I]; [injection I as <- <-; split; [discriminate|reflexivity]|]). contradiction. }
  assert (Go : go 0 (G (x 1) (x 5) (x 8) (x 9) (x 10) (x 11) (x 18) (x 19)) 12 (G (x 1) (x 5) 2 0x2000000 (x 10) (x 11) (x 18) 256) []).
  { eapply (go_seq 4); [one|]. eapply (go_seq 8); [one|]. one. }
  destruct (Go _ H0) as (m & b & E & H). exists (S m), b. eexists. split; [exact E|]. split; [exact H|]. repeat eexists.
Qed.
Lemma run_to s n : exists m b g, (n <= m)%nat /\ psteps the_led demo_code m (boot_arch s) = Some (b, first_primes n) /\ holds b 12 g /\ OUT (pseq n) g.
Proof.
  induction n as [|n (m & b & g & L & E & H & O)].
  - destruct (boot_go s) as (m & b & g & E & H & O). exists m, b, g. split; [lia|auto].
  - pose proof (pseq_range n).
    destruct (show_next _ b n (pseq n) g (le_n _) H O ltac:(lia) ltac:(lia) ltac:(lia)) as (m2 & b2 & g2 & E2 & H2 & O2).
    exists (m + S m2)%nat, b2, g2. split; [lia|]. rewrite first_S. split; [eapply psteps_app; eassumption|auto].
Qed.
Lemma psteps_prefix led code n : forall m a c l, psteps led code (n + m) a = Some (c, l) -> exists b l1 l2, psteps led code n a = Some (b, l1) /\ l = l1 ++ l2.
Proof.
  induction n as [|n IH]; intros m a c l H; [exists a, [], l; auto|]. cbn [psteps Nat.add] in *. destruct (pstep led code a) as [[a1 k1]|]; [|discriminate].
  destruct (psteps led code (n + m) a1) as [[c1 k2]|] eqn:E; [|discriminate]. injection H as <- <-. destruct (IH m a1 c1 k2 E) as (b & l1 & l2 & Q & ->).
  rewrite Q. exists b, (k1 ++ l1), l2. split; [reflexivity|]. apply app_assoc.
Qed.
Lemma first_prefix n : forall l1 l2, first_primes n = l1 ++ l2 -> l1 = first_primes (length l1).
Proof.
  induction n as [|n IH]; intros l1 l2 E.
  - symmetry in E. apply app_eq_nil in E. destruct E as [-> _]. reflexivity.
  - destruct l2 as [|y l2 _] using rev_ind.
    + rewrite app_nil_r in E. subst l1. f_equal. unfold first_primes. rewrite map_length, seq_length. reflexivity.
    + rewrite first_S, app_assoc in E. apply app_inj_tail in E. destruct E as [E _]. apply (IH l1 l2 E).
Qed.

(** On any system that hosts programs (ProgGen.v) the demo firmware shows the primes. *)
Lemma demo_primes s inp leds_at k mem0 led : hosts s inp leds_at k mem0 led -> 5 <= k -> (forall z, the_led z = true -> led z = true) ->
  (forall i ins, nth_error Demo.demo i = Some ins -> decode (mem0 (Z.of_nat i)) = Some ins) ->
  exists P : nat -> Z, P O = 3 /\ (forall n, next_prime (P n) (P (S n))) /\
  (forall t, exists n, shown leds_at t = 0 :: map P (seq 0 n)) /\
  (forall n, exists t, shown leds_at t = 0 :: map P (seq 0 n)).
Proof.
  intros Ho Hk Hl Hc.
  assert (Hcode : forall a i, demo_code a = Some i -> a mod 4 = 0 /\ 0 <= a / 4 < 2 ^ k /\ decode (mem0 (a / 4)) = Some i).
  { intros a i E. unfold demo_code in E. destruct (Z.eqb_spec (a mod 4) 0); [|discriminate]. destruct (Z.leb_spec 0 a); [|discriminate]. cbn [andb] in E.
    assert (0 <= a / 4) by (apply Z.div_pos; lia). pose proof E as E'. apply Hc in E'. rewrite Z2Nat.id in E' by assumption.
    assert (Ln : (Z.to_nat (a / 4) < length Demo.demo)%nat) by (apply nth_error_Some; congruence). change (length Demo.demo) with 28%nat in Ln.
    assert (2 ^ 5 <= 2 ^ k) by (apply Z.pow_le_mono_r; lia). change (2 ^ 5) with 32 in *. split; [assumption|]. split; [lia|assumption]. }
  assert (For : forall n, exists a m, psteps led demo_code n (boot_arch s) = Some (a, first_primes m)).
  { intros n. destruct (run_to s n) as (m & b & g & L & E & _). replace m with (n + (m - n))%nat in E by lia.
    destruct (psteps_prefix _ _ _ _ _ _ _ E) as (a & l1 & l2 & Q & Eq). apply first_prefix in Eq. exists a, (length l1). rewrite <- Eq. eapply psteps_mono; eassumption. }
  destruct (programs s inp leds_at k mem0 led Ho demo_code Hcode) as [Reach All].
  { intros n. destruct (For n) as (a & m & E). rewrite E. discriminate. }
  exists (fun n => pseq (S n)). split; [vm_compute; reflexivity|]. split; [intros n; apply pseq_next|].
  assert (Mp : forall n, map (fun i => pseq (S i)) (seq 0 n) = first_primes n). { intros n. unfold first_primes. rewrite <- seq_shift, map_map. reflexivity. }
  split.
  - intros t. destruct (All t) as (n & l & (a & E) & Sh). destruct (For n) as (a' & m & E'). rewrite E in E'. injection E' as <- ->.
    exists m. rewrite Mp, <- noted. exact Sh.
  - intros n. destruct (run_to s n) as (m & b & g & _ & E & _). destruct (Reach m (first_primes n)) as [t Sh]; [exists b; eapply psteps_mono; eassumption|].
    exists t. rewrite Mp, <- noted. exact Sh.
Qed.

(** C56: with the demo firmware in RAM (words that decode to the assembled text), the LEDs start
    at 0 and then show, in order, 3, 5, 7, 11, ... 251, 2, 3, 5, ... for ever and nothing else,
    whatever the pins and the serial divisor. *)
Theorem C56_demo_shows_primes : forall k D x0 p prog, soc_start x0 -> pins_ok p -> 5 <= k <= 23 ->
  Demo.assemble Demo.demo_text = Some prog ->
  (forall i ins, nth_error prog i = Some ins -> decode (wm_mem (so_mem x0) (Z.of_nat i)) = Some ins) ->
  let leds_at t := ld_leds (so_leds (soc_run k D x0 p t)) in
  exists P : nat -> Z, P O = 3 /\ (forall n, next_prime (P n) (P (S n))) /\
  (forall t, exists n, shown leds_at t = 0 :: map P (seq 0 n)) /\
  (forall n, exists t, shown leds_at t = 0 :: map P (seq 0 n)).
Proof.
  intros k D x0 p prog Hs Hp Hk As Hc leds_at. rewrite Demo.demo_assembles in As. injection As as <-.
  apply (demo_primes _ _ _ _ _ _ (soc_hosts k D x0 p Hs Hp ltac:(lia)) ltac:(lia)); [|exact Hc].
  intros z L. apply Z.eqb_eq in L. rewrite L. reflexivity.
Qed.

(** The SoC with the assembled firmware in its 4 KiB RAM (attosoc.py:986-987, num_bytes = 0x1000). *)
Definition demo_soc : soc :=
  {| so_cpu := por; so_mem := {| wm_mem := fun a => nth (Z.to_nat a) Demo.demo_words 0; wm_rdata := 0; wm_ack := false |};
     so_leds := leds_init; so_timer := timer_init; so_serial := serial_init |}.
Definition demo_pins (t : nat) : pins := {| pi_gpio := Z.of_nat t mod 256; pi_rx := true |}.
Lemma demo_start : soc_start demo_soc.
Proof.
  constructor; try reflexivity; [apply por_fresh|]. constructor; [|cbn; unfold word; lia|reflexivity]. intros a. cbn [demo_soc so_mem wm_mem].
  assert (F : forallb (fun w => (0 <=? w) && (w <? 2 ^ 32)) Demo.demo_words = true) by (vm_compute; reflexivity).
  rewrite forallb_forall in F. destruct (nth_in_or_default (Z.to_nat a) Demo.demo_words 0) as [I|E].
  - specialize (F _ I). apply andb_prop in F. destruct F as [F1 F2]. apply Z.leb_le in F1. apply Z.ltb_lt in F2. unfold word. lia.
  - rewrite E. unfold word. lia.
Qed.
Example C56_applies : soc_start demo_soc /\ pins_ok demo_pins /\ 5 <= 10 <= 23 /\ Demo.assemble Demo.demo_text = Some Demo.demo /\
  (forall i ins, nth_error Demo.demo i = Some ins -> decode (wm_mem (so_mem demo_soc) (Z.of_nat i)) = Some ins) /\
  ld_leds (so_leds (soc_run 10 1250 demo_soc demo_pins 130)) = 3.
Proof.
  split; [apply demo_start|]. split; [intros t; apply Z.mod_pos_bound; lia|]. split; [lia|]. split; [apply Demo.demo_assembles|]. split.
  - intros i ins E. cbn [demo_soc so_mem wm_mem]. rewrite Nat2Z.id. pose proof Demo.demo_words_decode as W.
    apply (f_equal (fun l => nth_error l i)) in W. rewrite !nth_error_map in W. rewrite E in W. cbn [option_map] in W.
    destruct (nth_error Demo.demo_words i) as [w|] eqn:Ew; [|discriminate]. rewrite (nth_error_nth _ _ 0 Ew). cbn [option_map] in W. congruence.
  - vm_compute. reflexivity.
Qed.

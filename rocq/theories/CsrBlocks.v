(** * Microcode blocks of the CSR instructions *)
From Coq Require Import ZArith Lia Bool List.
From Verif Require Import Bits Ucode Cpu Isa Timed BitLemmas Wf Sym Blocks.
Import ListNotations.
Open Scope Z_scope.

(** Implemented (not read-only-zero) CSRs and their index in the private RAM. *)
Definition impl_csrs : list Z := [0x300; 0x304; 0x305; 0x340; 0x341; 0x342; 0x344].
Definition csr_enc (n : Z) : Z := bits n 0 3 + 2 ^ 3 * bits n 6 1.

Lemma csr_write_advance a n v : advance (csr_write a n v) = csr_write (advance a) n v.
Proof.
  unfold csr_write. repeat match goal with |- context[match ?x with _ => _ end] => destruct x; try reflexivity end.
Qed.

Lemma relv_csr_write n a m p c1 c2 c3 c4 it v : In n impl_csrs -> word v -> relv a m p c1 c2 c3 c4 it ->
  relv (csr_write a n v)
    (upd m (2 ^ 5 + csr_enc n) (csr_dat_w (csr_enc n) v)) p
    (if csr_enc n =? 0 then bitb v 3 else c1) (if csr_enc n =? 0 then bitb v 7 else c2) c3
    (if csr_enc n =? 4 then bitb v 11 else c4) it.
Proof.
  intros Hn Hv R. unfold impl_csrs in Hn. cbn [In] in Hn. destruct R.
  repeat (destruct Hn as [<-|Hn]; [vmchange (2 ^ 5 + csr_enc _) || idtac;
    match goal with |- context[csr_enc ?n] => vmchange (csr_enc n) end;
    unf; norm; unfold upd;
    constructor; cbn [csr_write xr pc mie mpie meie mtvec mscratch mepc mcause took_int];
      rewrite ?testbit_bitb by lia; try assumption; try reflexivity;
      (intros r Hr; unfold rd_x, csr_write in *; cbn [xr] in *; rewrite r_x by assumption;
       match goal with |- context[r =? ?k] => destruct (Z.eqb_spec r k); [lia|reflexivity] end)|]).
  contradiction.
Qed.

Lemma csr_write_wr a n r v x : csr_write (wr_x a r v) n x = wr_x (csr_write a n x) r v.
Proof.
  unfold wr_x. destruct (r =? 0); [reflexivity|]. unfold csr_write.
  repeat match goal with |- context[match ?x with _ => _ end] => destruct x; try reflexivity end.
Qed.

(** Fast CSR epilogue: the ALU value is written to the CSR while the next fetch starts. *)
Lemma fast_epilog_csr_wait a n s : In n impl_csrs -> mp_enc (s_map s) = csr_enc n ->
  at_ 182 s -> settled s -> word (s_alu s) -> rel a s -> fetch_wait (csr_write a n (s_alu s)) s.
Proof.
  intros Hn He A B Hw R. split; [tauto|]. split; [exact B|]. split.
  { transitivity (pc a); [|apply R]. unfold impl_csrs in Hn. cbn [In] in Hn.
    repeat (destruct Hn as [<-|Hn]; [reflexivity|]). contradiction. }
  intros k d q. destruct A as (A1&A2&A3&A4), B as [B1 B2].
  pose proof (relv_csr_write n a _ _ _ _ _ _ _ _ Hn Hw R) as F.
  explode s. unfold rel in *. proj. subst.
  unfold impl_csrs in Hn. cbn [In] in Hn.
  repeat (destruct Hn as [<-|Hn];
    [match goal with |- context[csr_enc ?n] => vmchange (csr_enc n); let v := eval vm_compute in (csr_enc n) in change (csr_enc n) with v in F end;
     vmchange (rom 182); revert F; unf; norm; intros F; exact F|]).
  contradiction.
Qed.

Definition csr_entry (f : csr_fn) (imm : bool) (rd rs1 : Z) : Z :=
  match f with
  | CSRRW => if rd =? 0 then if imm then 0x2b else 0x26 else if imm then 0x2c else 0x27
  | CSRRS => if rs1 =? 0 then 0x28 else if imm then 0x2d else 0x29
  | CSRRC => if rs1 =? 0 then 0x28 else if imm then 0x2e else 0x2a
  end.

Section B.
Variable inp : nat -> input.

Lemma fec_wait a n s v : In n impl_csrs -> mp_enc (s_map s) = csr_enc n ->
  at_ 182 s -> settled s -> word v -> rel a s -> s_alu s = v -> fetch_wait (csr_write a n v) s.
Proof. intros. subst v. apply fast_epilog_csr_wait; assumption. Qed.
Lemma fe_wait a s d v : at_ 181 s -> settled s -> 0 <= s_dst s < 32 -> rel a s ->
  s_dst s = d -> s_alu s = v -> fetch_wait (wr_x a d v) s.
Proof. intros. subst. apply fast_epilog_wait; assumption. Qed.

(** Split on which CSR it is. *)
Ltac each_csr Hn :=
  unfold impl_csrs in Hn; cbn [In] in Hn;
  repeat (destruct Hn as [<-|Hn]); [..|contradiction].

Ltac wordt := unfold w32; repeat first [assumption|apply word_mod|apply word_lor|apply word_land|apply word_lxor|apply word_ldiff
  |match goal with H : forall _, word _ |- _ => apply H end].

Lemma relv_wr' a m p c1 c2 c3 c4 it r v v' : 0 <= r < 32 -> r <> 0 -> v' = v -> relv a m p c1 c2 c3 c4 it ->
  relv (wr_x a r v) (upd m r v') p c1 c2 c3 c4 it.
Proof.
  intros Hr Hz -> R. apply (relv_wr a m p c1 c2 c3 c4 it r v Hr) in R.
  apply Z.eqb_neq in Hz. rewrite Hz in R. exact R.
Qed.
Lemma relv_wr'' a m p c1 c2 c3 c4 it r v v' : 0 <= r < 32 -> v' = v -> relv a m p c1 c2 c3 c4 it ->
  relv (wr_x a r v) (if (if r =? 0 then false else true) then upd m r v' else m) p c1 c2 c3 c4 it.
Proof. intros Hr -> R. apply relv_wr; assumption. Qed.

Ltac csr_prep R :=
  match goal with |- context[csr_enc ?n] => vmchange (csr_enc n) end;
  cbn [csr_read];
  rewrite ?(r_mie _ _ _ _ _ _ _ _ R), ?(r_mpie _ _ _ _ _ _ _ _ R), ?(r_meie _ _ _ _ _ _ _ _ R), ?(r_mtvec _ _ _ _ _ _ _ _ R),
    ?(r_mscratch _ _ _ _ _ _ _ _ R), ?(r_mepc _ _ _ _ _ _ _ _ R), ?(r_mcause _ _ _ _ _ _ _ _ R);
  repeat match goal with |- context[csr_read_only ?n] => vmchange (csr_read_only n) end;
  repeat match goal with |- context[ro_zero ?n] => vmchange (ro_zero n) end;
  cbn [andb negb orb csr_new arg_value];
  match goal with |- context[(fst ?x - 2)%nat] => let v := eval vm_compute in (fst x - 2)%nat in change (fst x - 2)%nat with v end;
  match goal with |- context[rom ?k] => vmchange (rom k) end.

Ltac csr_mid R E :=
  match goal with |- fetch_wait (wr_x (csr_write ?a ?n ?v) _ _) _ =>
    let Hv := fresh in assert (Hv : word v) by (rewrite ?E; wordt);
    let F := fresh in pose proof (relv_csr_write n _ _ _ _ _ _ _ _ v ltac:(cbn; tauto) Hv R) as F;
    let e := eval vm_compute in (csr_enc n) in change (csr_enc n) with e in F; revert F end.

Lemma blk_csr f imm n s t a : In n impl_csrs -> mp_enc (s_map s) = csr_enc n ->
  at_ (csr_entry f imm (s_dst s) (s_src_a s)) s -> settled s -> s_rdata s = s_mem s (s_src_a s) ->
  rel a s -> wf s ->
  let i := Csr f (s_dst s) (if imm then CImm (s_src_a s) else CReg (s_src_a s)) n in
  settles inp (ready false (exec SENTINEL a (irq (inp t)) i)) (fst (exec_delay a i) - 2) t s.
Proof.
  intros Hn He A B Hr R W.
  pose proof (wf_src_a s W) as Wsa. pose proof (wf_dst s W) as Wds. pose proof (wf_pc s W) as Wpc. pose proof (wf_mem s W) as Wm.
  unfold inw in *. destruct A as (A1&A2&A3&A4), B as [B1 B2].
  explode s. unfold rel in *. proj. subst nx u mg sg m3 e2 rdt m6. cbv zeta.
  assert (Ex : rd_x a sa = m sa) by (apply R; lia).
  assert (E0 : forall x, word x -> w32 (0 + x) = x) by (intros; unfold w32; rewrite Z.add_0_l; apply Z.mod_small; assumption).
  assert (Wz : word sa) by (unfold word; lia).
  pose proof (r_mpp _ _ _ _ _ _ _ _ R) as Empp. subst c3.
  assert (Es : 2 ^ 3 * (if c1 then 1 else 0) + 2 ^ 7 * (if c2 then 1 else 0) + 2 ^ 11 * 3 = 3 * 2 ^ 11 + bz c2 * 2 ^ 7 + bz c1 * 2 ^ 3)
    by (destruct c1, c2; reflexivity).
  assert (Ee : forall b : bool, 2 ^ 11 * (if b then 1 else 0) = bz b * 2 ^ 11) by (intros []; reflexivity).
  assert (Wo1 : word (3 * 2 ^ 11 + bz c2 * 2 ^ 7 + bz c1 * 2 ^ 3)) by (unfold word, bz; destruct c1, c2; lia).
  assert (Wo2 : forall b, word (bz b * 2 ^ 11)) by (intros b; unfold word, bz; destruct b; lia).
  set (O1 := 3 * 2 ^ 11 + bz c2 * 2 ^ 7 + bz c1 * 2 ^ 3) in *.
  set (O2 := fun b => bz b * 2 ^ 11) in *. change (forall b, word (O2 b)) in Wo2.
  change (forall b : bool, 2 ^ 11 * (if b then 1 else 0) = O2 b) in Ee.
  assert (Radv : relv (advance a) m ((pc' + 1) mod 2 ^ 30) c1 c2 3 c4 int) by (apply relv_advance; assumption).
  unfold exec, exec_csr, exec_delay, csr_entry.
  destruct f; cbn [csr_writes].
  - (* CSRRW *)
    destruct (Z.eqb_spec ds 0) as [D|D].
    + subst ds. destruct imm; each_csr Hn.
      all: csr_prep R.
      all: stp; stp; apply settles_now; constructor.
      all: change (wr_x ?x 0 _) with x; rewrite csr_write_advance.
      all: apply fec_wait; [cbn; tauto|reflexivity|repeat split|repeat split|rewrite ?Ex; wordt|exact Radv|proj; rewrite ?Ex; apply E0; wordt].
    + destruct imm; each_csr Hn.
      all: csr_prep R.
      all: fold O1 || idtac; change (bz ?b * 2 ^ 11) with (O2 b) || idtac.
      all: stp; stp; stp; rewrite ?Es, ?Ee; apply settles_now; constructor.
      all: rewrite advance_wr, csr_write_advance.
      all: csr_mid Radv Ex; unf; norm; intros F.
      all: apply fe_wait; [repeat split|repeat split|assumption| |reflexivity|proj; apply E0; wordt].
      all: unfold rel; proj; rewrite ?Ex in *; rewrite ?E0 by wordt; exact F.
  - (* CSRRS *)
    assert (Wx : word (if imm then sa else m sa)) by (destruct imm; wordt).
    destruct (Z.eqb_spec sa 0) as [D|D].
    + assert (Hw : csr_writes CSRRS (if imm then CImm sa else CReg sa) = false) by (subst; destruct imm; reflexivity).
      cbn [csr_writes] in Hw. rewrite Hw. clear Hw.
      each_csr Hn.
      all: csr_prep R.
      all: fold O1 || idtac; change (bz ?b * 2 ^ 11) with (O2 b) || idtac.
      all: stp; stp; stp; rewrite ?Es, ?Ee; apply settles_now; constructor.
      all: rewrite advance_wr.
      all: apply fe_wait; [repeat split|repeat split|assumption|exact Radv|reflexivity|proj; apply E0; wordt].
    + assert (Hw : csr_writes CSRRS (if imm then CImm sa else CReg sa) = true)
        by (apply Z.eqb_neq in D; destruct imm; cbn [csr_writes]; rewrite D; reflexivity).
      cbn [csr_writes] in Hw. rewrite Hw. clear Hw.
      destruct imm; each_csr Hn.
      all: csr_prep R.
      all: fold O1 || idtac; change (bz ?b * 2 ^ 11) with (O2 b) || idtac.
      all: stp; stp; stp; stp; stp; rewrite ?Es, ?Ee; apply settles_now; constructor.
      all: rewrite advance_wr, csr_write_advance, <- csr_write_wr.
      all: apply fec_wait; [cbn; tauto|reflexivity|repeat split|repeat split|rewrite ?Ex; wordt| |proj; rewrite ?Ex, ?E0 by wordt; reflexivity].
      all: unfold rel; proj; rewrite ?E0 by wordt; apply relv_wr; assumption.
  - (* CSRRC *)
    assert (Wx : word (if imm then sa else m sa)) by (destruct imm; wordt).
    destruct (Z.eqb_spec sa 0) as [D|D].
    + assert (Hw : csr_writes CSRRC (if imm then CImm sa else CReg sa) = false) by (subst; destruct imm; reflexivity).
      cbn [csr_writes] in Hw. rewrite Hw. clear Hw.
      each_csr Hn.
      all: csr_prep R.
      all: fold O1 || idtac; change (bz ?b * 2 ^ 11) with (O2 b) || idtac.
      all: stp; stp; stp; rewrite ?Es, ?Ee; apply settles_now; constructor.
      all: rewrite advance_wr.
      all: apply fe_wait; [repeat split|repeat split|assumption|exact Radv|reflexivity|proj; apply E0; wordt].
    + assert (Hw : csr_writes CSRRC (if imm then CImm sa else CReg sa) = true)
        by (apply Z.eqb_neq in D; destruct imm; cbn [csr_writes]; rewrite D; reflexivity).
      cbn [csr_writes] in Hw. rewrite Hw. clear Hw.
      destruct imm; each_csr Hn.
      all: csr_prep R.
      all: fold O1 || idtac; change (bz ?b * 2 ^ 11) with (O2 b) || idtac.
      all: stp; stp; stp; stp; stp; stp; rewrite ?Es, ?Ee; apply settles_now; constructor.
      all: rewrite advance_wr, csr_write_advance, <- csr_write_wr.
      (* MIP is read twice, possibly with different values, but writing it has no effect *)
      all: try match goal with |- fetch_wait (csr_write ?a 0x344 ?v) (Build_state _ _ _ ?al _ _ _ _ _ _ _ _ _ _ _ _ _ _ _ _ _ _) =>
             change (csr_write a 0x344 v) with (csr_write a 0x344 al) end.
      all: assert (Wn : word (2 ^ 32 - 1)) by (unfold word; lia).
      all: apply fec_wait; [cbn; tauto|reflexivity|repeat split|repeat split|rewrite ?Ex; wordt| |
             proj; try reflexivity; rewrite ?Ex, ?E0 by wordt; apply ldiff_ok; wordt].
      all: unfold rel; proj; rewrite ?E0 by wordt; apply relv_wr; assumption.
Qed.
End B.

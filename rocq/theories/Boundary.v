(** * From an acknowledged fetch to the next request *)
From Coq Require Import ZArith Lia Bool List.
From Verif Require Import Bits Ucode Cpu Isa Timed BitLemmas Wf Sym Blocks CsrBlocks DecodeOk.
Import ListNotations.
Open Scope Z_scope.

(** The cycle after the word [w] was acknowledged: microinstruction [check_int], with
    everything the decoder latched from [w]. *)
Record boundary (a : arch) (w : Z) (s : state) : Prop := {
  b_at : at_ 1 s; b_rel : rel a s; b_wf : wf s;
  b_src_a : s_src_a s = fld w 15 5; b_src_b : s_src_b s = fld w 20 5; b_dst : s_dst s = fld w 7 5;
  b_rdata : s_rdata s = s_mem s (s_src_a s);
  b_imm : exists c, s_imm s = imm_next true w c;
  b_attr : s_attr s = csr_attr_next w;
  b_map : exists c e, s_map s = {| mp_src_a := i_rs1 w; mp_dst := i_rd w; mp_fwd := map_is_csr w; mp_op := i_funct3 w;
            mp_req := map_first w c; mp_enc := if map_is_csr w then bits w 20 3 + 2 ^ 3 * bits w 26 1 else e |};
  b_exc : s_exc s = {| ex_src_a := i_rs1 w; ex_fwd := exc_is_csr w; ex_quad := bits w 28 2; ex_op := i_funct3 w;
            ex_ro := bits w 30 2 =? 3; ex_valid := exc_first w; ex_type := exc_type_first w |} }.

(** An acknowledged fetch leads to the boundary. *)
Lemma fetch_ack a s d q : fetch_wait a s -> wf s -> word d -> boundary a d (nst s true d q).
Proof.
  intros (A & [B1 B2] & _ & R) W Hd.
  assert (W' : wf (nst s true d q)) by (apply wf_step; assumption).
  specialize (R true d q).
  assert (F : s_rdata (nst s true d q) = s_mem (nst s true d q) (s_src_a (nst s true d q)) /\ at_ 1 (nst s true d q)).
  { clear - A. destruct A as [A|[A|A]]; destruct A as (A1&A2&A3&A4); explode s; proj; subst;
    match goal with |- context[rom ?k] => vmchange (rom k) end; unf; norm; unfold at_; proj.
    all: split; [|repeat split].
    - reflexivity.
    - unfold upd, i_rs1. destruct (ds =? 0); [reflexivity|]. cbn [andb]. rewrite (Z.eqb_sym ds). destruct (_ =? ds); reflexivity.
    - unfold upd, i_rs1. rewrite (Z.eqb_sym (2 ^ 5 + m6)). destruct (_ =? _); reflexivity. }
  destruct F as [F1 F2].
  assert (F : s_u s = rom 0 \/ s_u s = rom 181 \/ s_u s = rom 182) by (destruct A as [A|[A|A]]; destruct A; tauto).
  assert (Fe : u_fetch (s_u s) = true) by (destruct F as [E|[E|E]]; rewrite E; reflexivity).
  assert (St : do_decode s (mki true d q) = true) by (unfold do_decode; rewrite Fe; reflexivity).
  constructor; try assumption; unfold nst, step; rewrite St; cbn [rst mki dat_r]; proj; try reflexivity.
  - eexists. reflexivity.
  - unfold map_next. rewrite B1. cbn [andb]. eexists _, _. reflexivity.
  - unfold exc_next. rewrite B2. cbn [andb]. reflexivity.
Qed.

Section B.
Variable inp : nat -> input.
Hypothesis inp_word : forall t, word (dat_r (inp t)).

(** Read-only-zero CSRs. *)
Lemma blk_ro0 s t a : at_ 0x25 s -> settled s -> rel a s -> wf s ->
  settles inp (ready false (Fetching (advance (wr_x a (s_dst s) 0)))) 2 t s.
Proof.
  intros (A1&A2&A3&A4) (B1&B2) R W. pose proof (wf_dst s W) as Wd. pose proof (wf_pc s W) as Wpc.
  explode s. unfold rel in R. proj. subst nx u mg sg m3 e2.
  vmchange (rom 0x25). stp. stp. apply settles_now. constructor. rewrite advance_wr.
  apply fe_wait; [repeat split|repeat split|exact Wd| |reflexivity|reflexivity].
  unfold rel; proj. apply relv_advance; assumption.
Qed.

Definition intp (a : arch) (q : bool) : bool := int_enabled a && q.

Lemma int_pending_rel a s q : rel a s -> int_pending (s_csr s) q = intp a q.
Proof.
  intros R. unfold int_pending, intp, int_enabled. rewrite (r_mie _ _ _ _ _ _ _ _ R), (r_meie _ _ _ _ _ _ _ _ R).
  destruct (c_mie _), (c_meie _), q; reflexivity.
Qed.

(** The two query microinstructions ([check_int] and [csr_trampoline]): an interrupt or
    decoder exception goes to [save_pc]. *)
Definition query (k : Z) : Prop := k = 1 \/ k = 36.

Lemma query_rel k a s kk d q : query k -> at_ k s -> rel a s -> intp a q = false -> rel a (nst s kk d q).
Proof.
  intros K A R I. rewrite <- (int_pending_rel a s q R) in I. unfold int_pending in I. destruct A as (A1&A2&A3&A4).
  explode s. unfold rel in *. proj. destruct K; subst; match goal with |- context[rom ?k] => vmchange (rom k) end;
  unf; norm; unfold int_pending; proj; rewrite ?I; exact R.
Qed.

Lemma query_int k a s t : query k -> at_ k s -> rel a s -> wf s -> intp a (irq (inp t)) = true ->
  settles inp (ready true (Fetching (interrupt a))) 5 t s.
Proof.
  intros K A R W I. rewrite <- (int_pending_rel a s (irq (inp t)) R) in I. unfold int_pending in I.
  pose proof (wf_mem s W 37) as Wm. pose proof (wf_pc s W) as Wpc.
  destruct A as (A1&A2&A3&A4). explode s. unfold rel in *. proj.
  apply settles_later.
  { destruct K; subst; match goal with |- context[rom ?k] => vmchange (rom k) end; idle_tac. }
  revert I. generalize (ack (inp t)) (dat_r (inp t)) (irq (inp t)). intros kk d q I.
  unfold interrupt. apply blk_trap with (it := int).
  all: destruct K; subst; match goal with |- context[rom ?k] => vmchange (rom k) end.
  all: unf; norm; unfold int_pending; proj; rewrite ?I, ?orb_true_r; unfold at_, settled; proj; try (repeat split; fail); try assumption.
  all: try (unfold inw; lia).
  all: destruct e6; repeat split.
Qed.

Lemma query_exc k a s t cause : query k -> at_ k s -> rel a s -> wf s -> intp a (irq (inp t)) = false ->
  ex_valid (s_exc s) = true -> ex_type (s_exc s) = cause ->
  settles inp (ready true (Fetching (exception SENTINEL a cause))) 5 t s.
Proof.
  intros K A R W I V T. rewrite <- (int_pending_rel a s (irq (inp t)) R) in I. unfold int_pending in I.
  pose proof (wf_mem s W 37) as Wm. pose proof (wf_pc s W) as Wpc. pose proof (wf_ex_type s W) as We.
  destruct A as (A1&A2&A3&A4). explode s. unfold rel in *. proj.
  apply settles_later.
  { destruct K; subst; match goal with |- context[rom ?k] => vmchange (rom k) end; idle_tac. }
  revert I. generalize (ack (inp t)) (dat_r (inp t)) (irq (inp t)). intros kk d q I.
  unfold exception. apply blk_trap with (it := int).
  all: destruct K; subst; match goal with |- context[rom ?k] => vmchange (rom k) end.
  all: unf; norm; unfold int_pending; proj; rewrite ?I; unfold at_, settled; proj; try (repeat split; fail); try assumption.
  all: unfold sync_mcause; rewrite (r_int _ _ _ _ _ _ _ _ R); destruct int; lia.
Qed.

Lemma query_idle k s : query k -> at_ k s -> idle s.
Proof.
  intros K (A1&A2&A3&A4). explode s. proj. destruct K; subst; match goal with |- context[rom ?k] => vmchange (rom k) end; idle_tac.
Qed.

(** No trap: on to the instruction's microcode. *)
Lemma check_pass a s k d q r : at_ 1 s -> rel a s -> intp a q = false -> ex_valid (s_exc s) = false ->
  s_rdata s = s_mem s (s_src_a s) -> mp_req (s_map s) = r -> 0 <= r < 255 ->
  let s' := nst s k d q in
  at_ r s' /\ settled s' /\ s_a s' = s_mem s' (s_src_a s') /\ s_rdata s' = s_mem s' (s_src_b s') /\
  s_src_a s' = s_src_a s /\ s_src_b s' = s_src_b s /\ s_dst s' = s_dst s /\ s_imm s' = s_imm s /\
  s_mem s' = s_mem s /\
  s_map s' = {| mp_src_a := mp_src_a (s_map s); mp_dst := mp_dst (s_map s); mp_fwd := false; mp_op := i_funct3 d;
                mp_req := (if mp_fwd (s_map s) then map_second (s_attr s) (mp_op (s_map s)) (mp_dst (s_map s)) (mp_src_a (s_map s)) r else r);
                mp_enc := mp_enc (s_map s) |} /\
  ex_valid (s_exc s') = (if ex_fwd (s_exc s) then exc_second (s_attr s) (ex_ro (s_exc s)) (ex_op (s_exc s)) (ex_src_a (s_exc s)) (ex_quad (s_exc s)) else false) /\
  (ex_fwd (s_exc s) = true -> ex_type (s_exc s') = 2).
Proof.
  intros (A1&A2&A3&A4) R I V Rd Hr Wr. rewrite <- (int_pending_rel a s q R) in I. unfold int_pending in I.
  explode s. unfold rel in *. proj. subst. vmchange (rom 1).
  cbv zeta. unf. norm. unfold at_, settled, int_pending; proj. rewrite ?I.
  repeat split; try reflexivity; try assumption.
  - apply Z.mod_small. lia.
  - intros ->. reflexivity.
Qed.

Lemma tramp_pass a s k d q r : at_ 36 s -> settled s -> rel a s -> intp a q = false -> ex_valid (s_exc s) = false ->
  mp_req (s_map s) = r -> 0 <= r < 255 ->
  let s' := nst s k d q in
  at_ r s' /\ settled s' /\ s_rdata s' = s_mem s' (s_src_a s') /\
  s_src_a s' = s_src_a s /\ s_dst s' = s_dst s /\ s_mem s' = s_mem s /\ mp_enc (s_map s') = mp_enc (s_map s).
Proof.
  intros (A1&A2&A3&A4) [B1 B2] R I V Hr Wr. rewrite <- (int_pending_rel a s q R) in I. unfold int_pending in I.
  explode s. unfold rel in *. proj. subst. vmchange (rom 36).
  cbv zeta. unf. norm. unfold at_, settled, int_pending; proj. rewrite ?I.
  repeat split; try reflexivity; try assumption.
  apply Z.mod_small. lia.
Qed.

Ltac simp_delay := match goal with |- settles _ (ready ?e _) ?n _ _ =>
  let e' := eval cbv beta iota delta [snd fst trap_delay] in e in change e with e' end.

Lemma settles_eq (P P' : state -> Prop) n n' t s : settles inp P n t s -> n = n' -> (forall x, P x -> P' x) -> settles inp P' n' t s.
Proof. intros H <- HP. induction H; [apply settles_now; auto|apply settles_later; auto]. Qed.

Lemma fld_fld w lo n lo' n' : 0 <= lo -> 0 <= n' -> 0 <= lo' -> lo' + n' <= n -> fld (fld w lo n) lo' n' = fld w (lo + lo') n'.
Proof.
  intros. unfold fld. replace (2 ^ n) with (2 ^ lo' * 2 ^ (n - lo')) by (rewrite <- Z.pow_add_r by lia; f_equal; lia).
  rewrite Z.rem_mul_r by (try apply Z.pow_nonzero; try apply Z.pow_pos_nonneg; lia).
  assert (0 < 2 ^ lo') by (apply Z.pow_pos_nonneg; lia).
  rewrite (Z.mul_comm (2 ^ lo')), Z.div_add by lia. rewrite Z.div_small by (apply Z.mod_pos_bound; lia). rewrite Z.add_0_l.
  rewrite Z.div_div by (try apply Z.pow_nonzero; lia). rewrite <- Z.pow_add_r by lia.
  replace (2 ^ (n - lo')) with (2 ^ n' * 2 ^ (n - lo' - n')) by (rewrite <- Z.pow_add_r by lia; f_equal; lia).
  rewrite Z.rem_mul_r by (try apply Z.pow_nonzero; try apply Z.pow_pos_nonneg; lia).
  rewrite (Z.mul_comm (2 ^ n')), Z.mod_add by (apply Z.pow_nonzero; lia). apply Z.mod_mod. apply Z.pow_nonzero; lia.
Qed.

Theorem boundary_settles a w s t : boundary a w s -> word w ->
  let i1 := irq (inp t) in let i2 := irq (inp (S t)) in let i3 := irq (inp (S (S t))) in
  let d := fetch_delay a w i1 i2 in
  settles inp (ready (snd d) (fetched SENTINEL a w i1 i2 i3)) (fst d) t s.
Proof.
  intros B Hw. pose proof (b_at _ _ _ B) as A. pose proof (b_rel _ _ _ B) as R. pose proof (b_wf _ _ _ B) as W.
  cbv zeta. unfold fetch_delay, fetched.
  change (int_enabled a && irq (inp t)) with (intp a (irq (inp t))).
  change (int_enabled a && irq (inp (S t))) with (intp a (irq (inp (S t)))).
  destruct (intp a (irq (inp t))) eqn:I1.
  { apply (query_int 1); try assumption. left; reflexivity. }
  destruct (decode w) as [i|] eqn:D.
  2:{ destruct (decode_none w Hw D) as [V T]. apply (query_exc 1); try assumption; rewrite ?(b_exc _ _ _ B); try assumption. left; reflexivity. }
  destruct (is_csr i) eqn:C.
  - (* CSR *)
    destruct i as [| | | | | | | | | | | | | |f rd g n]; try discriminate. cbn [andb].
    destruct (b_map _ _ _ B) as (c & e & M).
    destruct (decode_csr w f rd g n c D) as (V & Mc & Ec & Me & Fit).
    destruct Fit as (-> & -> & imm & -> & F3).
    set (n := fld w 20 12) in *.
    assert (Hn : 0 <= n < 4096) by (apply (fld_range w 20 12); lia).
    assert (V0 : ex_valid (s_exc s) = false) by (rewrite (b_exc _ _ _ B); exact V).
    pose proof (check_pass a s (ack (inp t)) (dat_r (inp t)) (irq (inp t)) 0x24 A R I1 V0 (b_rdata _ _ _ B)) as P.
    rewrite M in P. cbn [mp_req] in P. specialize (P Me ltac:(lia)).
    rewrite (b_exc _ _ _ B) in P.
    pose proof (query_rel 1 a s (ack (inp t)) (dat_r (inp t)) (irq (inp t)) (or_introl eq_refl) A R I1) as R1.
    assert (W1 : wf (nst s (ack (inp t)) (dat_r (inp t)) (irq (inp t)))) by (apply wf_step; [assumption|apply inp_word]).
    set (s1 := nst s (ack (inp t)) (dat_r (inp t)) (irq (inp t))) in *. cbv zeta in P.
    cbn [mp_src_a mp_dst mp_fwd mp_op mp_req mp_enc ex_src_a ex_fwd ex_quad ex_op ex_ro ex_valid ex_type] in P.
    rewrite Mc, Ec in P. destruct P as (A1 & S1 & _ & _ & Sa & _ & Sd & _ & Sm & M1 & V1 & T1).
    specialize (T1 eq_refl).
    assert (forall P n, settles inp P n (S t) s1 -> settles inp P (S n) t s) as Go.
    { intros. apply settles_later; [apply (query_idle 1); [left; reflexivity|assumption]|assumption]. }
    destruct (intp a (irq (inp (S t)))) eqn:I2.
    { apply Go. apply (query_int 36); try assumption. right; reflexivity. }
    (* attributes *)
    pose proof (attr_at n Hn) as At. unfold attr_ok in At.
    rewrite (b_attr _ _ _ B) in M1, V1. unfold csr_attr_next in M1, V1. change (i_funct12 w) with n in M1, V1.
    set (at0 := csr_rom (csr_idx n)) in *.
    assert (Eq : bits w 28 2 = bits n 8 2) by (symmetry; unfold n; apply (fld_fld w 20 12 8 2); lia).
    assert (Ero : bits w 30 2 = fld n 10 2) by (symmetry; unfold n; apply (fld_fld w 20 12 10 2); lia).
    rewrite Eq, Ero in V1. change (fld n 10 2 =? 3) with (csr_read_only n) in V1.
    change (i_funct3 w) with (fld w 12 3) in *. rewrite F3 in M1, V1.
    change (i_rs1 w) with (fld w 15 5) in *. change (i_rd w) with (fld w 7 5) in *.
    pose proof (csr_read_known a (irq (inp (S (S t)))) n) as K. pose proof (csr_read_known a false n) as K'.
    assert (Wr : csr_writes f (if imm then CImm (fld w 15 5) else CReg (fld w 15 5)) =
                 (match f with CSRRW => true | _ => negb (fld w 15 5 =? 0) end)) by (destruct f, imm; reflexivity).
    (* the exception bit of the second cycle *)
    assert (Vx : ex_valid (s_exc s1) = (negb (known n) || csr_writes f (if imm then CImm (fld w 15 5) else CReg (fld w 15 5)) && csr_read_only n)).
    { rewrite V1, Wr. unfold exc_second. apply andb_prop in At. destruct At as [At _]. apply andb_prop in At. destruct At as [At _].
      apply eqb_prop in At. rewrite <- At.
      destruct (ill at0); cbn [negb andb orb]; [reflexivity|].
      destruct (bits n 8 2 =? 3); cbn [negb andb orb].
      - destruct (csr_read_only n); rewrite ?andb_false_r, ?andb_true_r; cbn [andb]; [|reflexivity].
        destruct f, imm; cbn; destruct (fld w 15 5 =? 0); reflexivity.
      - destruct (csr_read_only n && _); reflexivity. }
    cbn [exec]. unfold exec_csr, exec_delay.
    destruct (negb (known n) || csr_writes f (if imm then CImm (fld w 15 5) else CReg (fld w 15 5)) && csr_read_only n) eqn:Bad.
    + (* trap *)
      assert (settles inp (ready true (Fetching (exception SENTINEL a 2))) 6 t s) as Tr.
      { apply Go. apply (query_exc 36); try assumption. right; reflexivity. }
      destruct (csr_read a (irq (inp (S (S t)))) n) as [x|]; destruct (csr_read a false n) as [y|].
      * rewrite <- K in Bad. cbn [negb orb] in Bad. rewrite Bad. exact Tr.
      * congruence.
      * congruence.
      * exact Tr.
    + apply orb_false_elim in Bad. destruct Bad as [Kn Bad]. apply negb_false_iff in Kn. rewrite Kn in *.
      rewrite Bad in *.
      cbn [negb orb] in At. apply andb_prop in At. destruct At as [At At3]. apply andb_prop in At. destruct At as [At1 At2].
      apply eqb_prop in At1. symmetry in At1. apply eqb_prop in At2.
      assert (Il : ill at0 = false) by (destruct (ill at0); [discriminate At1|reflexivity]).
      (* entry point *)
      assert (Ent : mp_req (s_map s1) = if ro_zero n then 0x25 else csr_entry f imm (fld w 7 5) (fld w 15 5)).
      { rewrite M1. cbn [mp_req]. unfold map_second. rewrite Il, At2. destruct (ro_zero n); [reflexivity|].
        unfold csr_entry. destruct f, imm; cbn; destruct (fld w 7 5 =? 0), (fld w 15 5 =? 0); reflexivity. }
      pose proof (query_rel 36 a s1 (ack (inp (S t))) (dat_r (inp (S t))) (irq (inp (S t))) (or_intror eq_refl) A1 R1 I2) as R2.
      assert (Rg : 0 <= (if ro_zero n then 0x25 else csr_entry f imm (fld w 7 5) (fld w 15 5)) < 255).
      { unfold csr_entry. destruct (ro_zero n), f, imm; destruct (fld w 7 5 =? 0), (fld w 15 5 =? 0); lia. }
      pose proof (tramp_pass a s1 (ack (inp (S t))) (dat_r (inp (S t))) (irq (inp (S t))) _ A1 S1 R1 I2 Vx Ent Rg) as P2.
      assert (W2 : wf (nst s1 (ack (inp (S t))) (dat_r (inp (S t))) (irq (inp (S t))))) by (apply wf_step; [assumption|apply inp_word]).
      set (s2 := nst s1 (ack (inp (S t))) (dat_r (inp (S t))) (irq (inp (S t)))) in *. cbv zeta in P2.
      destruct P2 as (A2 & S2 & Rd2 & Sa2 & Sd2 & Sm2 & En2).
      assert (forall P n, settles inp P n (S (S t)) s2 -> settles inp P (S (S n)) t s) as Go2.
      { intros. apply Go. apply settles_later; [apply (query_idle 36); [right; reflexivity|assumption]|assumption]. }
      assert (Hd : s_dst s2 = fld w 7 5) by (rewrite Sd2, Sd; apply (b_dst _ _ _ B)).
      assert (Hs : s_src_a s2 = fld w 15 5) by (rewrite Sa2, Sa; apply (b_src_a _ _ _ B)).
      destruct (csr_read a (irq (inp (S (S t)))) n) as [x|] eqn:Ex; [|discriminate].
      destruct (csr_read a false n) as [y|]; [|discriminate].
      destruct (ro_zero n) eqn:Z0.
      * (* read-only zero *)
        assert (x = 0 /\ forall v, csr_write a n v = a) as [-> Hwr].
        { clear - Ex Z0. unfold csr_read in Ex.
          repeat match type of Ex with match ?x with _ => _ end = _ => is_var x; destruct x; try discriminate end.
          all: try rewrite Z0 in Ex; try (injection Ex as <-). all: try (split; [reflexivity|intros; reflexivity]).
          all: discriminate Z0. }
        match goal with |- context[if csr_writes ?f ?g then csr_write a n ?v else a] =>
          replace (if csr_writes f g then csr_write a n v else a) with a by (rewrite Hwr; destruct (csr_writes f g); reflexivity) end.
        apply Go2. rewrite <- Hd. apply blk_ro0; assumption.
      * apply existsb_exists in At3. destruct At3 as (n' & Hin & En). apply Z.eqb_eq in En. subst n'.
        rewrite <- Hd, <- Hs in A2.
        assert (Enc : mp_enc (s_map s2) = csr_enc n).
        { rewrite En2, M1. cbn [mp_enc]. unfold csr_enc. change bits with fld. unfold n. rewrite !fld_fld by lia. reflexivity. }
        pose proof (blk_csr inp f imm n s2 (S (S t)) a Hin Enc A2 S2 Rd2 R2 W2) as Bk. cbv zeta in Bk. rewrite Hd, Hs in Bk.
        eapply settles_eq; [apply Go2; exact Bk| |].
        -- unfold exec_delay. rewrite Bad, Z0. pose proof (csr_read_known a false n) as Kf. rewrite Kn in Kf.
           destruct (csr_read a false n); [|discriminate].
           destruct f; [destruct (fld w 7 5 =? 0)| |]; cbn [fst]; try reflexivity; destruct (csr_writes _ _); reflexivity.
        -- intros z. cbn [exec]. unfold exec_csr. rewrite Ex, Bad.
           replace (snd _) with false; [exact (fun H => H)|].
           destruct f; [destruct (fld w 7 5 =? 0)| |]; try reflexivity; destruct (csr_writes _ _); reflexivity.
  - (* everything else *)
    cbn [andb].
    assert (Hec : i = Ecall \/ i = Ebreak \/ (i <> Ecall /\ i <> Ebreak)) by (destruct i; intuition congruence).
    destruct Hec as [->|[->|[He Hb]]].
    { apply decode_ecall in D. subst w. apply (query_exc 1); rewrite ?(b_exc _ _ _ B); try assumption; try reflexivity. left; reflexivity. }
    { apply decode_ebreak in D. subst w. apply (query_exc 1); rewrite ?(b_exc _ _ _ B); try assumption; try reflexivity. left; reflexivity. }
    destruct (b_map _ _ _ B) as (c & e & M). destruct (b_imm _ _ _ B) as (c' & Im).
    destruct (decode_some w i c c' D C He Hb) as (V & Mc & Ec & Me & Fit). rewrite <- Im in Fit.
    assert (V0 : ex_valid (s_exc s) = false) by (rewrite (b_exc _ _ _ B); exact V).
    assert (Rg : 0 <= entry i < 255).
    { destruct i as [| | | |cc ? ? ?|sz sg ? ? ?|sz ? ? ?|f ? ? ?|f ? ? ?| | | | | |]; cbn [entry]; try lia;
      [destruct cc|destruct sz, sg|destruct sz|destruct f|destruct f]; cbn; lia. }
    pose proof (check_pass a s (ack (inp t)) (dat_r (inp t)) (irq (inp t)) (entry i) A R I1 V0 (b_rdata _ _ _ B)) as P.
    rewrite M in P. cbn [mp_req] in P. specialize (P Me Rg).
    pose proof (query_rel 1 a s (ack (inp t)) (dat_r (inp t)) (irq (inp t)) (or_introl eq_refl) A R I1) as R1.
    assert (W1 : wf (nst s (ack (inp t)) (dat_r (inp t)) (irq (inp t)))) by (apply wf_step; [assumption|apply inp_word]).
    set (s1 := nst s (ack (inp t)) (dat_r (inp t)) (irq (inp t))) in *. cbv zeta in P.
    destruct P as (A1 & S1 & Ra & Rd & Sa & Sb & Sd & Si & _).
    rewrite <- Si in Fit. rewrite (b_src_a _ _ _ B) in Sa. rewrite (b_src_b _ _ _ B) in Sb. rewrite (b_dst _ _ _ B) in Sd.
    assert (Ds : dispatched (entry i) s1) by (constructor; assumption).
    assert (forall P n, settles inp P (n - 1) (S t) s1 -> (0 < n)%nat -> settles inp P n t s) as Go.
    { intros P n Hs Hn. replace n with (S (n - 1)) by lia. apply settles_later; [apply (query_idle 1); [left; reflexivity|assumption]|assumption]. }
    clear M Me Im. unfold fits in Fit. cbv zeta in Fit. rewrite <- Sa, <- Sb, <- Sd in Fit.
    set (q3 := irq (inp (S (S t)))).
    apply Go.
    2:{ clear. destruct i; cbn [exec_delay]; unfold jump_delay, trap_delay;
        repeat match goal with |- context[if ?b then _ else _] => destruct b end;
        repeat match goal with |- context[match ?b with _ => _ end] => destruct b end; cbn [fst]; lia. }
    destruct i as [rd imm|rd imm|rd off|rd rs1 off|cc rs1 rs2 off|sz sg rd rs1 off|sz rs1 rs2 off|f rd rs1 imm|f rd rs1 rs2| | | | | |]; try congruence.
    + destruct Fit as [-> Fi]. apply blk_lui; assumption.
    + destruct Fit as [-> Fi]. apply blk_auipc; assumption.
    + destruct Fit as (-> & Fi & Ev). cbn [exec_delay].
      replace (snd (jump_delay _)) with true by (unfold jump_delay; destruct (target_ok _); reflexivity). apply blk_jal; assumption.
    + destruct Fit as (-> & -> & Fi). cbn [exec_delay].
      replace (snd (jump_delay _)) with true by (unfold jump_delay; destruct (target_ok _); reflexivity). apply blk_jalr; assumption.
    + destruct Fit as (-> & -> & Fi & Ev). apply blk_branch; assumption.
    + destruct Fit as (-> & -> & Fi & Ev). apply blk_load; assumption.
    + destruct Fit as (-> & -> & Fi). apply blk_store; assumption.
    + destruct Fit as (-> & -> & Fi). unfold entry in Ds. destruct (is_shift f) eqn:Sh.
      * replace (snd _) with false by (cbn [exec_delay]; rewrite Sh; destruct (imm =? 0); reflexivity).
        destruct Fi as [Fr Fi]. apply blk_shifti; assumption.
      * unfold exec_delay. rewrite Sh. destruct Fi as [Fi Ns]. apply blk_opimm; assumption.
    + destruct Fit as (-> & -> & ->). unfold entry in Ds. destruct (is_shift f) eqn:Sh.
      * replace (snd _) with false by (cbn [exec_delay]; rewrite Sh; cbv zeta; destruct (_ =? 0); reflexivity).
        apply blk_shift; assumption.
      * unfold exec_delay. rewrite Sh. apply blk_op; assumption.
    + apply blk_misc; assumption.
    + apply blk_mret; assumption.
    + apply blk_misc; assumption.
    + discriminate.
Qed.
End B.

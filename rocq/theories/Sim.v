(** * The core simulates the timed reference machine *)
From Coq Require Import ZArith Lia Bool List.
From Verif Require Import Bits Ucode Cpu Isa Timed BitLemmas Wf Sym Blocks CsrBlocks DecodeOk Boundary.
Import ListNotations.
Open Scope Z_scope.

(** ** Waiting cycles *)
Lemma fetch_wait_hold a s d q : fetch_wait a s -> fetch_wait a (nst s false d q).
Proof.
  intros (A & [B1 B2] & _ & R). specialize (R false d q).
  assert (F : at_ 0 (nst s false d q) /\ settled (nst s false d q)).
  { clear - A. destruct A as [A|[A|A]]; destruct A as (A1&A2&A3&A4); explode s; proj; subst;
    match goal with |- context[rom ?k] => vmchange (rom k) end; unf; norm; unfold at_, settled; proj; repeat split. }
  apply fetch0_wait; tauto.
Qed.

Lemma load_hold sz sgn a rd ea s d q :
  at_ (load_at sz sgn) s -> settled s -> s_data_adr s = ea -> s_dst s = rd -> rel a s ->
  let s' := nst s false d q in
  at_ (load_at sz sgn) s' /\ settled s' /\ s_data_adr s' = ea /\ s_dst s' = rd /\ rel a s'.
Proof.
  intros (A1&A2&A3&A4) [B1 B2] Ha Hd R. explode s. unfold rel in *. proj. subst.
  destruct sz, sgn; unfold load_at; match goal with |- context[rom ?k] => vmchange (rom k) end; cbv zeta; unf; norm; unfold at_, settled; proj;
  repeat split; apply R.
Qed.

Lemma store_hold sz a ea v s d q :
  at_ (store_at sz) s -> settled s -> s_data_adr s = ea -> s_wdata s = v -> rel a s ->
  let s' := nst s false d q in
  at_ (store_at sz) s' /\ settled s' /\ s_data_adr s' = ea /\ s_wdata s' = v /\ rel a s'.
Proof.
  intros (A1&A2&A3&A4) [B1 B2] Ha Hd R. explode s. unfold rel in *. proj. subst.
  destruct sz; unfold store_at; match goal with |- context[rom ?k] => vmchange (rom k) end; cbv zeta; unf; norm; unfold at_, settled; proj;
  repeat split; apply R.
Qed.

Lemma waits_hold m s d q : waits m s -> waits m (nst s false d q).
Proof.
  intros H. destruct H.
  - constructor. apply fetch_wait_hold. assumption.
  - destruct (load_hold sz sgn _ rd ea s d q H H0 H1 H2 H4) as (? & ? & ? & ? & ?). eapply w_load; eassumption.
  - destruct (store_hold sz _ ea _ s d q H H0 H1 H2 H4) as (? & ? & ? & ? & ?). eapply w_store; eassumption.
Qed.

(** ** Load data *)
Definition ms_of (sz : width) : mem_sel := match sz with Byte => MS_BYTE | Half => MS_HWORD | Word => MS_WORD end.

Lemma sext8_ok x : 0 <= x < 2 ^ 8 -> sext8 x = sext 8 x mod 2 ^ 32.
Proof.
  intros H. unfold sext8, sext. change (8 - 1) with 7.
  assert (E : bitb x 7 = negb (x <? 2 ^ 7)).
  { unfold bitb, bits. rewrite (Z.mod_small (x / 2 ^ 7)) by (split; [apply Z.div_pos; lia|apply Z.div_lt_upper_bound; lia]).
    destruct (Z.ltb_spec x (2 ^ 7)).
    - rewrite Z.div_small by lia. reflexivity.
    - replace (x / 2 ^ 7) with 1; [reflexivity|]. apply (Z.div_unique x (2 ^ 7) 1 (x - 2 ^ 7)); lia. }
  rewrite E. destruct (Z.ltb_spec x (2 ^ 7)); cbn [negb].
  - rewrite Z.mod_small; lia.
  - apply (Z.mod_unique _ _ (-1)); lia.
Qed.
Lemma sext16_ok x : 0 <= x < 2 ^ 16 -> sext16 x = sext 16 x mod 2 ^ 32.
Proof.
  intros H. unfold sext16, sext. change (16 - 1) with 15.
  assert (E : bitb x 15 = negb (x <? 2 ^ 15)).
  { unfold bitb, bits. rewrite (Z.mod_small (x / 2 ^ 15)) by (split; [apply Z.div_pos; lia|apply Z.div_lt_upper_bound; lia]).
    destruct (Z.ltb_spec x (2 ^ 15)).
    - rewrite Z.div_small by lia. reflexivity.
    - replace (x / 2 ^ 15) with 1; [reflexivity|]. apply (Z.div_unique x (2 ^ 15) 1 (x - 2 ^ 15)); lia. }
  rewrite E. destruct (Z.ltb_spec x (2 ^ 15)); cbn [negb].
  - rewrite Z.mod_small; lia.
  - apply (Z.mod_unique _ _ (-1)); lia.
Qed.

Lemma half_lane ea : aligned Half ea = true -> ea mod 4 = 2 * bits ea 1 1.
Proof.
  unfold aligned, bytes. intros H. apply Z.eqb_eq in H. unfold bits. change (2 ^ 1) with 2.
  change 4 with (2 * 2). rewrite Z.rem_mul_r by lia. lia.
Qed.
Lemma bits_low2 ea : bits ea 0 2 = ea mod 4.
Proof. unfold bits. change (2 ^ 0) with 1. rewrite Z.div_1_r. reflexivity. Qed.

Lemma rdata_ok sz (sgn : bool) ea d : aligned sz ea = true -> word d ->
  rdata_align (ms_of sz) (if sgn then ME_SIGN else ME_ZERO) ea d = load_value sz sgn ea d.
Proof.
  intros Al Hd. unfold rdata_align, load_value. destruct sz; unfold ms_of, bytes.
  - rewrite bits_low2. change bits with fld. pose proof (Z.mod_pos_bound ea 4 ltac:(lia)).
    assert (E : (if ea mod 4 =? 0 then fld d 0 8 else if ea mod 4 =? 1 then fld d 8 8 else if ea mod 4 =? 2 then fld d 16 8 else fld d 24 8)
                = fld d (8 * (ea mod 4)) (8 * 1)).
    { destruct (Z.eqb_spec (ea mod 4) 0) as [->|]; [reflexivity|].
      destruct (Z.eqb_spec (ea mod 4) 1) as [->|]; [reflexivity|].
      destruct (Z.eqb_spec (ea mod 4) 2) as [->|]; [reflexivity|]. replace (ea mod 4) with 3 by lia. reflexivity. }
    rewrite E. destruct sgn; [|reflexivity]. apply sext8_ok. apply (fld_range _ _ 8). lia.
  - rewrite (half_lane ea Al). pose proof (bits_range ea 1 1 ltac:(lia)). change (2 ^ 1) with 2 in *.
    assert (E : (if bits ea 1 1 =? 0 then bits d 0 16 else bits d 16 16) = fld d (8 * (2 * bits ea 1 1)) (8 * 2)).
    { destruct (Z.eqb_spec (bits ea 1 1) 0) as [->|]; [reflexivity|]. replace (bits ea 1 1) with 1 by lia. reflexivity. }
    rewrite E. destruct sgn; [|reflexivity]. apply sext16_ok. apply (fld_range _ _ 16). lia.
  - unfold aligned, bytes in Al. apply Z.eqb_eq in Al. rewrite Al. change (8 * 0) with 0. change (8 * 4) with 32.
    rewrite fld_full by exact Hd. destruct sgn; [|reflexivity].
    unfold sext. change (32 - 1) with 31. unfold word in Hd. destruct (Z.ltb_spec d (2 ^ 31)).
    + rewrite Z.mod_small; lia.
    + apply (Z.mod_unique _ _ (-1)); lia.
Qed.

Section S.
Variable inp : nat -> input.
Hypothesis inp_word : forall t, word (dat_r (inp t)).

Lemma load_ack sz sgn a rd ea s d q t :
  at_ (load_at sz sgn) s -> settled s -> s_data_adr s = ea -> s_dst s = rd -> aligned sz ea = true ->
  rel (match sz with Byte => advance a | _ => a end) s -> wf s -> word d ->
  settles inp (waits (Fetching (advance (wr_x a rd (load_value sz sgn ea d))))) 1 (S t) (nst s true d q).
Proof.
  intros (A1&A2&A3&A4) [B1 B2] Ha Hd Al R W Hw. rewrite advance_wr.
  pose proof (wf_dst s W) as Wd. pose proof (wf_pc s W) as Wpc. unfold inw in Wd.
  pose proof (rdata_ok sz sgn ea d Al Hw) as L.
  assert (WL : w32 (0 + rdata_align (ms_of sz) (if sgn then ME_SIGN else ME_ZERO) ea d) = load_value sz sgn ea d).
  { rewrite <- L. unfold w32. rewrite Z.add_0_l. apply Z.mod_small. apply rdata_align_word. assumption. }
  assert (WL' : sz = Word -> w32 (0 + rdata_align MS_WORD ME_ZERO ea d) = load_value sz sgn ea d).
  { intros ->. rewrite <- WL. destruct sgn; reflexivity. }
  explode s. unfold rel in R. proj. subst da ds nx u mg sg m3 e2.
  destruct sz, sgn; unfold load_at; match goal with |- context[rom ?k] => vmchange (rom k) end; unf; norm;
    stp; apply settles_now; constructor; (apply fe_wait; [repeat split|repeat split|exact Wd| |reflexivity|first [exact WL|exact (WL' eq_refl)]]);
    unfold rel; proj; try (apply relv_advance; [exact Wpc|]); exact R.
Qed.

Lemma store_ack sz a s d q t :
  at_ (store_at sz) s -> settled s -> rel (advance a) s -> wf s ->
  settles inp (waits (Fetching (advance a))) 1 (S t) (nst s true d q).
Proof.
  intros (A1&A2&A3&A4) [B1 B2] R W.
  explode s. unfold rel in R. proj. subst nx u mg sg m3 e2.
  destruct sz; unfold store_at; match goal with |- context[rom ?k] => vmchange (rom k) end; unf; norm;
    stp; apply settles_now; constructor; (apply fetch0_wait; [repeat split|repeat split|exact R]).
Qed.

Definition irqs (t : nat) : bool := irq (inp t).

(** The invariant of the simulation in cycle [t]. *)
Definition sim (t : nat) (ts : tstate) (s : state) : Prop :=
  wf s /\ settles inp (ready (t_early ts) (t_m ts)) (t_idle ts) t s.

Lemma sim_step t ts s : sim t ts s -> rst (inp t) = false ->
  (t_idle ts = O -> t_early ts = true -> ack (inp t) = false) ->
  sim (S t) (tnext SENTINEL irqs t ts (ack (inp t)) (dat_r (inp t))) (step s (inp t)).
Proof.
  intros [W H] Hr He. rewrite step_nst by assumption.
  assert (W' : wf (nst s (ack (inp t)) (dat_r (inp t)) (irq (inp t)))) by (apply wf_step; [assumption|apply inp_word]).
  split; [assumption|]. clear W'. destruct ts as [m n e]. unfold tnext. cbn [t_m t_idle t_early] in *.
  destruct n as [|n].
  2:{ inversion H; subst. assumption. }
  inversion H as [t' s' P|]; subst. destruct e.
  - (* early *)
    rewrite He by reflexivity. destruct P as (a & -> & P). apply settles_now. constructor. apply P.
  - cbn [ready] in P. destruct (ack (inp t)) eqn:K; cycle 1.
    { apply settles_now. apply waits_hold. assumption. }
    cbn [t_m t_idle t_early]. destruct P.
    + (* fetch *) cbn [complete delay_after]. rewrite !PeanoNat.Nat.add_succ_r, PeanoNat.Nat.add_0_r.
      unfold irqs. rewrite Nat.add_0_r || idtac.
      refine (boundary_settles inp inp_word a (dat_r (inp t)) _ (S t) _ (inp_word t)).
      apply fetch_ack; [assumption|assumption|apply inp_word].
    + cbn [complete delay_after fst snd ready]. apply load_ack; try assumption. apply inp_word.
    + cbn [complete delay_after fst snd ready]. eapply store_ack; eassumption.
Qed.

End S.

(** ** Bus outputs *)
Record shows (r : breq) (s : state) : Prop := {
  sh_cyc : o_cyc s = true; sh_stb : o_stb s = true; sh_adr : o_adr s = q_adr r; sh_sel : o_sel s = q_sel r;
  sh_we : o_we s = q_we r; sh_dat : q_we r = true -> o_dat_w s = q_dat r }.
Record quiet (s : state) : Prop := {
  qu_cyc : o_cyc s = false; qu_stb : o_stb s = false; qu_we : o_we s = false; qu_adr : o_adr s = 0; qu_sel : o_sel s = 0 }.

Lemma idle_quiet s : idle s -> quiet s.
Proof.
  intros (H1 & H2 & _). constructor; unfold o_cyc, o_stb, o_we, o_adr, o_sel; rewrite ?H1, ?H2; reflexivity.
Qed.

Lemma fetch_shows k a s : u_mreq (rom k) = true -> u_fetch (rom k) = true -> u_wmem (rom k) = false ->
  at_ k s -> pc a = 4 * s_pc s -> shows (request (Fetching a)) s.
Proof.
  intros H1 H2 H3 (A1 & A2 & A3 & A4) Hp. cbn [request].
  constructor; unfold o_cyc, o_stb, o_we, o_adr, o_sel; rewrite ?A1, ?A3, ?H1, ?H2, ?H3; try reflexivity.
  - cbn [addr_align_adr q_adr]. rewrite Hp, Z.mul_comm, Z.div_mul by lia. reflexivity.
  - discriminate.
Qed.

Lemma adr_word ea : word ea -> bits ea 2 30 = ea / 4.
Proof.
  intros H. unfold bits. change (2 ^ 2) with 4. apply Z.mod_small. unfold word in H.
  split; [apply Z.div_pos; lia|apply Z.div_lt_upper_bound; lia].
Qed.

Lemma sel_ok sz ea : aligned sz ea = true -> addr_align_sel true false (ms_of sz) ea = lanes sz ea.
Proof.
  intros Al. unfold addr_align_sel, lanes. destruct sz; unfold ms_of, bytes.
  - rewrite bits_low2. pose proof (Z.mod_pos_bound ea 4 ltac:(lia)).
    destruct (Z.eqb_spec (ea mod 4) 0) as [->|]; [reflexivity|].
    destruct (Z.eqb_spec (ea mod 4) 1) as [->|]; [reflexivity|].
    destruct (Z.eqb_spec (ea mod 4) 2) as [->|]; [reflexivity|]. replace (ea mod 4) with 3 by lia. reflexivity.
  - rewrite (half_lane ea Al). pose proof (bits_range ea 1 1 ltac:(lia)). change (2 ^ 1) with 2 in *.
    destruct (Z.eqb_spec (bits ea 1 1) 0) as [->|]; [reflexivity|]. replace (bits ea 1 1) with 1 by lia. reflexivity.
  - unfold aligned, bytes in Al. apply Z.eqb_eq in Al. rewrite Al. reflexivity.
Qed.

Lemma ready_shows e m s : ready e m s -> wf s -> shows (request m) s.
Proof.
  intros H W. destruct e; cbn [ready] in H.
  - destruct H as (a & -> & (k & Hk & A) & Hp & _).
    apply (fetch_shows k); try assumption; unfold early_list in Hk; cbn [In] in Hk;
    repeat (destruct Hk as [<-|Hk]; [reflexivity|]); contradiction.
  - destruct H as [a s (A & _ & Hp & _)|sz sgn a rd ea s A B Ha Hd Al R|sz a ea v s A B Ha Hv Al R].
    + destruct A as [A|[A|A]]; eapply fetch_shows; try eassumption; reflexivity.
    + destruct A as (A1 & A2 & A3 & A4). pose proof (wf_data_adr s W) as Wa. cbn [request].
      pose proof (sel_ok sz ea Al) as Sl. pose proof (adr_word ea) as Ad. rewrite <- Ha in Ad at 1. specialize (Ad Wa).
      constructor; unfold o_cyc, o_stb, o_we, o_adr, o_sel; rewrite ?A1, ?A3, ?Ha; cbn [q_adr q_sel q_we q_dat];
        try discriminate; destruct sz, sgn; try reflexivity; try exact Sl; try exact Ad.
    + destruct A as (A1 & A2 & A3 & A4). pose proof (wf_data_adr s W) as Wa. cbn [request].
      pose proof (sel_ok sz ea Al) as Sl. pose proof (adr_word ea) as Ad. rewrite <- Ha in Ad at 1. specialize (Ad Wa).
      constructor; unfold o_cyc, o_stb, o_we, o_adr, o_sel; rewrite ?A1, ?A3, ?Ha; cbn [q_adr q_sel q_we q_dat];
        try discriminate; try (intros _; exact Hv); destruct sz; try reflexivity; try exact Sl; try exact Ad.
Qed.

(** What is on the bus in a cycle of the timed machine. *)
Lemma sim_out inp t ts s : sim inp t ts s ->
  match t_idle ts with O => shows (request (t_m ts)) s | S _ => quiet s end.
Proof.
  intros [W H]. destruct ts as [m n e]. cbn [t_m t_idle t_early] in *. destruct n.
  - inversion H; subst. eapply ready_shows; eassumption.
  - inversion H; subst. apply idle_quiet. assumption.
Qed.

(** In every cycle the core executes a live microinstruction. *)
Lemma early_live k : In k early_list -> live k = true.
Proof. intros Hk. unfold early_list in Hk; cbn [In] in Hk; repeat (destruct Hk as [<-|Hk]; [reflexivity|]); contradiction. Qed.
Lemma sim_live inp t ts s : sim inp t ts s -> exists k, live k = true /\ at_ k s.
Proof.
  intros [W H]. inversion H as [t' s' P|n t' s' P]; subst.
  - destruct (t_early ts); cbn [ready] in P.
    + destruct P as (a & _ & (k & Hk & A) & _). exists k. split; [apply early_live|]; assumption.
    + destruct P as [a s (A & _)|sz sgn a rd ea s A|sz a ea v s A].
      * destruct A as [A|[A|A]]; eexists; (split; [|exact A]); reflexivity.
      * eexists; (split; [|exact A]); destruct sz, sgn; reflexivity.
      * eexists; (split; [|exact A]); destruct sz; reflexivity.
  - destruct P as (_ & _ & P). exact P.
Qed.

(** * C93: what a program sends on the serial line, in every cycle

    C41, C47 and C60 say what one store to a serial port does; C91 has the transmitter's registers among what the simulator
    computes.  Here the line itself is given by the frames a program sends, in the terms in which a terminal sees them: a list of
    bytes and of the cycles in which their start bits begin. *)
From Coq Require Import ZArith Lia Bool List.
From Verif Require Import Bits Ucode Cpu Isa Timed BitLemmas Wf Sym Blocks CsrBlocks DecodeOk Boundary Sim Main Obs PropsBus PropsInv Observe PropsIsa PropsFrame Latency Memory SocMem Crash Uart Periph Soc SocIo IoMem SeqTest PowerUp Transparent IoTransparent Emulate Clocked Waves.
Import ListNotations.
Open Scope Z_scope.

(** ** Frames

    Latest first: the cycle of the first cycle of the start bit, and the byte.  A frame is a start bit (low), eight bits, least
    significant first, and a stop bit (high), [D] cycles each (attosoc.py:486-510). *)
Definition frame_ends (D : Z) (f : nat) : nat := (f + Z.to_nat (10 * D))%nat.
(** Nothing is being sent in cycle [c]. *)
Fixpoint silent (D : Z) (fs : list (nat * Z)) (c : nat) : bool :=
  match fs with
  | [] => true
  | (f, d) :: r => if Nat.ltb c f then silent D r c else Nat.leb (frame_ends D f) c
  end.
(** The line in cycle [c]: high if nothing is being sent. *)
Fixpoint line_of (D : Z) (fs : list (nat * Z)) (c : nat) : bool :=
  match fs with
  | [] => true
  | (f, d) :: r => if Nat.ltb c f then line_of D r c else if Nat.ltb c (frame_ends D f) then frame_bit 8 d (Z.of_nat (c - f) / D) else true
  end.
(** The frames that the instructions [sim 0], ..., [sim (n-1)] send: each store to the data register (byte addresses [reg]) by a
    request that appears in cycle [v] sends the low byte, from cycle [v + 2] on, unless something is still being sent in cycle
    [v + 1]; then the byte is lost. *)
Fixpoint frames (ram : Z -> bool) (phys : Z -> Z) (line : nat -> bool) (bus : nat -> Z) (sim : nat -> nat * (arch * (Z -> Z))) (reg : Z -> bool) (D : Z) (n : nat) : list (nat * Z) :=
  match n with
  | O => []
  | S j => let fs := frames ram phys line bus sim reg D j in
           match driven ram phys line bus (sim j) with
           | Some (v, ea, d) => if reg ea && silent D fs (v + 1) then ((v + 2)%nat, d mod 256) :: fs else fs
           | None => fs
           end
  end.

(** A transmitter behind the data register [reg]: idle at first, its line high while it is idle; a request to write that appears
    in cycle [v] starts a frame in cycle [v + 2] if it is idle in cycle [v + 1], and nothing else starts one. *)
Record transmitter (D : Z) (s : state) (inp : nat -> input) (reg : Z -> bool) (idle pin : nat -> bool) : Prop := {
  tr_first : forall c, (c < 2)%nat -> idle c = true;
  tr_high : forall c, idle c = true -> pin c = true;
  tr_frame : forall v, writes_at s inp reg v -> idle (v + 1)%nat = true ->
    (forall j, Z.of_nat j < 10 * D -> pin (v + 2 + j)%nat = frame_bit 8 (o_dat_w (run s inp v) mod 256) (Z.of_nat j / D) /\ idle (v + 2 + j)%nat = false) /\
    idle (v + 2 + Z.to_nat (10 * D))%nat = true;
  tr_only : forall v, idle (v + 1)%nat = true -> idle (v + 2)%nat = false -> writes_at s inp reg v }.

Section T.
Variables (D : Z) (s : state) (inp : nat -> input) (reg : Z -> bool) (idle pin : nat -> bool).
Hypotheses (HD : 1 <= D) (Tr : transmitter D s inp reg idle pin).
(** The frames sent so far are those of [fs], the last one perhaps not finished. *)
Definition sent (fs : list (nat * Z)) (c : nat) : Prop :=
  idle c = silent D fs c /\
  match fs with
  | [] => True
  | (f, d) :: r => (f <= c)%nat /\ (forall j, Z.of_nat j < 10 * D -> pin (f + j)%nat = frame_bit 8 d (Z.of_nat j / D) /\ idle (f + j)%nat = false) /\ idle (frame_ends D f) = true
  end.
Lemma sent_pin fs c : sent fs c -> pin c = line_of D fs c.
Proof.
  intros [I H]. destruct fs as [|[f d] r]; cbn [silent line_of] in *; [apply (tr_high _ _ _ _ _ _ Tr c I)|]. destruct H as (Lf & Fr & _).
  destruct (Nat.ltb_spec c f); [lia|]. unfold frame_ends in *. destruct (Nat.ltb_spec c (f + Z.to_nat (10 * D))) as [L|L].
  - destruct (Fr (c - f)%nat ltac:(lia)) as [P _]. replace (f + (c - f))%nat with c in P by lia. exact P.
  - apply (tr_high _ _ _ _ _ _ Tr). rewrite I. apply Nat.leb_le. exact L.
Qed.
Lemma sent_keeps fs v : sent fs (v + 1) -> ~ writes_at s inp reg v -> sent fs (v + 2).
Proof.
  intros [I H] N. split.
  - destruct (idle (v + 1)) eqn:Iv.
    + destruct (idle (v + 2)) eqn:Iw; [|exfalso; apply N, (tr_only _ _ _ _ _ _ Tr v Iv Iw)]. destruct fs as [|[f d] r]; cbn [silent] in *; [reflexivity|]. destruct H as (Lf & _).
      destruct (Nat.ltb_spec (v + 1) f); [lia|]. destruct (Nat.ltb_spec (v + 2) f); [lia|]. symmetry in I. apply Nat.leb_le in I. symmetry. apply Nat.leb_le. lia.
    + destruct fs as [|[f d] r]; cbn [silent] in *; [discriminate|]. destruct H as (Lf & Fr & En).
      destruct (Nat.ltb_spec (v + 1) f); [lia|]. destruct (Nat.ltb_spec (v + 2) f); [lia|]. symmetry in I. apply Nat.leb_gt in I. unfold frame_ends in *.
      destruct (Nat.leb_spec (f + Z.to_nat (10 * D)) (v + 2)) as [L|L].
      * replace (v + 2)%nat with (f + Z.to_nat (10 * D))%nat by lia. exact En.
      * destruct (Fr (v + 2 - f)%nat ltac:(lia)) as [_ P]. replace (f + (v + 2 - f))%nat with (v + 2)%nat in P by lia. exact P.
  - destruct fs as [|[f d] r]; [exact Logic.I|]. destruct H as (Lf & Fr & En). split; [lia|]. split; assumption.
Qed.
Lemma sent_range fs v n : sent fs (v + 1) -> (forall x, (v <= x < v + n)%nat -> ~ writes_at s inp reg x) -> sent fs (v + n + 1).
Proof.
  intros P. induction n as [|n IH]; intros N; [rewrite Nat.add_0_r; exact P|].
  replace (v + S n + 1)%nat with (v + n + 2)%nat by lia. apply sent_keeps; [apply IH; intros x Hx; apply N; lia|apply N; lia].
Qed.
Lemma sent_write fs v : sent fs (v + 1) -> writes_at s inp reg v ->
  sent (if silent D fs (v + 1) then ((v + 2)%nat, o_dat_w (run s inp v) mod 256) :: fs else fs) (v + 2).
Proof.
  intros [I H] W. rewrite <- I. destruct (idle (v + 1)) eqn:Iv.
  - destruct (tr_frame _ _ _ _ _ _ Tr v W Iv) as [Fr En]. split; [|split; [lia|split; [exact Fr|exact En]]].
    cbn [silent]. destruct (Nat.ltb_spec (v + 2) (v + 2)); [lia|]. destruct (Fr O ltac:(lia)) as [_ Q]. rewrite Nat.add_0_r in Q. rewrite Q. symmetry. apply Nat.leb_gt. unfold frame_ends. lia.
  - split.
    + destruct fs as [|[f d] r]; cbn [silent] in *; [discriminate|]. destruct H as (Lf & Fr & En).
      destruct (Nat.ltb_spec (v + 1) f); [lia|]. destruct (Nat.ltb_spec (v + 2) f); [lia|]. symmetry in I. apply Nat.leb_gt in I. unfold frame_ends in *.
      destruct (Nat.leb_spec (f + Z.to_nat (10 * D)) (v + 2)) as [L|L].
      * replace (v + 2)%nat with (f + Z.to_nat (10 * D))%nat by lia. exact En.
      * destruct (Fr (v + 2 - f)%nat ltac:(lia)) as [_ P]. replace (f + (v + 2 - f))%nat with (v + 2)%nat in P by lia. exact P.
    + destruct fs as [|[f d] r]; [exact Logic.I|]. destruct H as (Lf & Fr & En). split; [lia|]. split; assumption.
Qed.
(** Frames that start later do not change what was sent before. *)
Lemma silent_old fs f d c : (c < f)%nat -> silent D ((f, d) :: fs) c = silent D fs c.
Proof. intros H. cbn [silent]. destruct (Nat.ltb_spec c f); [reflexivity|lia]. Qed.
Lemma line_old fs f d c : (c < f)%nat -> line_of D ((f, d) :: fs) c = line_of D fs c.
Proof. intros H. cbn [line_of]. destruct (Nat.ltb_spec c f); [reflexivity|lia]. Qed.
End T.

(** One store. *)
Section Once.
Variables (D : Z) (s : state) (inp : nat -> input) (reg : Z -> bool) (idle pin : nat -> bool).
Hypotheses (K : ok s inp) (Reg : forall ea, reg ea = true -> ea mod 4 = 0) (Tr : transmitter D s inp reg idle pin).
Lemma store_sends t t' w sz rs1 rs2 off : executes s inp t t' w -> int_taken s inp t w = false -> decode w = Some (Store sz rs1 rs2 off) ->
  let x := run s inp (S t) in reg ((x_of x rs1 + off) mod 2 ^ 32) = true -> idle (t + 7)%nat = true ->
  (forall j, Z.of_nat j < 10 * D -> pin (t + 8 + j)%nat = frame_bit 8 (x_of x rs2 mod 256) (Z.of_nat j / D) /\ idle (t + 8 + j)%nat = false) /\
  idle (t + 8 + Z.to_nat (10 * D))%nat = true.
Proof.
  intros X T Dc x Rg Id. pose proof (store_starts s inp K t t' w X) as St. unfold stored in St. rewrite T, Dc in St. cbv zeta in St. fold x in St.
  set (ea := (x_of x rs1 + off) mod 2 ^ 32) in *. pose proof (Reg ea Rg) as A4. assert (E4 : 4 * (ea / 4) = ea) by (pose proof (Z.div_mod ea 4 ltac:(lia)); lia).
  assert (Al : ea mod bytes sz = 0).
  { rewrite <- E4. destruct sz; cbn [bytes]; [apply Z.mod_1_r| |rewrite Z.mul_comm; apply Z.mod_mul; lia]. replace (4 * (ea / 4)) with ((2 * (ea / 4)) * 2) by lia. apply Z.mod_mul. lia. }
  rewrite Al in St. cbn [Z.eqb] in St. destruct St as (_ & Ss & We & Ad & Se & Da & _). assert (Bz : 1 <= bytes sz) by (destruct sz; cbn; lia).
  destruct (tr_frame _ _ _ _ _ _ Tr (t + 6)%nat) as [Fr En].
  - split; [exact Ss|]. rewrite Ad, E4. split; [exact We|]. split; [exact Rg|]. rewrite Se by lia. unfold addressed. rewrite A4. destruct sz; reflexivity.
  - replace (t + 6 + 1)%nat with (t + 7)%nat by lia. exact Id.
  - replace (t + 6 + 2)%nat with (t + 8)%nat in * by lia. split; [|exact En]. intros j Hj.
    specialize (Da 0 ltac:(lia)). rewrite A4 in Da. unfold byte, fld in Da. change (2 ^ (8 * (0 + 0))) with 1 in Da. change (2 ^ (8 * 0)) with 1 in Da. rewrite !Z.div_1_r in Da. change (2 ^ 8) with 256 in Da.
    rewrite <- Da. apply Fr. exact Hj.
Qed.
End Once.

(** ** Along the simulator *)
Section Sims.
Variables (mapped ram : Z -> bool) (phys : Z -> Z) (wait : latency) (s : state) (inp : nat -> input) (m0 : Z -> Z).
Hypothesis (K : ok s inp) (Sl : ram_slave ram phys s inp m0) (An : answers_exactly mapped wait s inp).
Local Notation bus := (fun c => dat_r (inp c)).
Local Notation line := (fun c => irq (inp c)).
Local Notation sim := (io_clocked ram phys wait line bus (boot_arch s) m0).
Variables (D : Z) (reg : Z -> bool) (idle pin : nat -> bool).
Hypotheses (HD : 1 <= D) (Reg : forall ea, reg ea = true -> ea mod 4 = 0) (Tr : transmitter D s inp reg idle pin).
Local Notation sent := (sent D idle pin).
(** One instruction. *)
Lemma one_sends fs t t' w : executes s inp t t' w -> sent fs (t + 2) ->
  let fs' := match stored s inp t w with
             | Some (ea, _, d) => if reg ea && silent D fs (t + 7) then ((t + 8)%nat, d mod 256) :: fs else fs
             | None => fs
             end in
  sent fs' (t' + 2) /\ forall c, (t + 2 <= c <= t' + 2)%nat -> pin c = line_of D fs' c /\ idle c = silent D fs' c.
Proof.
  intros X S0. pose proof (store_starts s inp K t t' w X) as St.
  assert (Lx : (t < t')%nat) by apply X.
  assert (Ne : forall v, o_we (run s inp v) = false -> ~ writes_at s inp reg v) by (intros v E (_ & We & _); congruence).
  assert (Quiet : (forall x, (t < x <= t')%nat -> ~ writes_at s inp reg x) -> sent fs (t' + 2) /\ forall c, (t + 2 <= c <= t' + 2)%nat -> pin c = line_of D fs c /\ idle c = silent D fs c).
  { intros N. assert (P : forall c, (t + 2 <= c <= t' + 2)%nat -> sent fs c).
    { intros c Hc. replace c with (S t + (c - t - 2) + 1)%nat by lia. apply (sent_range D s inp reg idle pin Tr); [replace (S t + 1)%nat with (t + 2)%nat by lia; exact S0|]. intros x Hx. apply N. lia. }
    split; [apply P; lia|]. intros c Hc. split; [apply (sent_pin D s inp reg idle pin HD Tr), P, Hc|apply P, Hc]. }
  cbv zeta. destruct (stored s inp t w) as [[[ea n] d]|] eqn:Es.
  2:{ apply Quiet. intros x Hx Wx. apply (Ne x); [apply St; [exact Hx|apply Wx]|exact Wx]. }
  destruct St as (Lt & Ss & We & Ad & Se & Da & Ot).
  assert (En : exists sz, n = bytes sz /\ ea mod bytes sz = 0).
  { unfold stored in Es. destruct (int_taken _ _ _ _); [discriminate|]. destruct (decode w) as [i|]; [|discriminate]. destruct i; try discriminate. cbv zeta in Es. destruct (Z.eqb_spec (((x_of (run s inp (S t)) rs1 + off) mod 2 ^ 32) mod bytes sz) 0) as [Al|]; [|discriminate].
    assert (E : forall a b c a' b' c' : Z, Some (a, b, c) = Some (a', b', c') -> a = a' /\ b = b') by (intros; split; congruence). destruct (E _ _ _ _ _ _ Es) as [<- <-]. exists sz. auto. }
  destruct En as (sz & -> & Al). assert (Bz : 1 <= bytes sz) by (destruct sz; cbn; lia).
  assert (S1 : Z.testbit (o_sel (run s inp (t + 6))) 0 = true <-> ea mod 4 = 0).
  { rewrite Se by lia. unfold addressed. pose proof (Z.mod_pos_bound ea 4 ltac:(lia)). split; [intros H0; apply andb_prop in H0; lia|intros ->; destruct sz; reflexivity]. }
  destruct (reg ea) eqn:Rg; cbn [andb].
  2:{ apply Quiet. intros x Hx (Sx & Wx & Rx & Lx0). destruct (Nat.eq_dec x (t + 6)) as [->|Nx]; [|rewrite Ot in Wx by assumption; discriminate].
      apply S1 in Lx0. rewrite Ad in Rx. replace (4 * (ea / 4)) with ea in Rx by (pose proof (Z.div_mod ea 4 ltac:(lia)); lia). congruence. }
  pose proof (Reg ea Rg) as A4. assert (E4 : 4 * (ea / 4) = ea) by (pose proof (Z.div_mod ea 4 ltac:(lia)); lia).
  assert (W : writes_at s inp reg (t + 6)) by (split; [exact Ss|]; rewrite Ad, E4; split; [exact We|split; [exact Rg|apply S1; exact A4]]).
  assert (Nx : forall x, (t < x <= t')%nat -> x <> (t + 6)%nat -> ~ writes_at s inp reg x) by (intros x Hx N Wx; apply (Ne x); [apply Ot; [exact Hx|exact N|apply Wx]|exact Wx]).
  assert (Dm : o_dat_w (run s inp (t + 6)) mod 256 = d mod 256).
  { specialize (Da 0 ltac:(lia)). rewrite A4 in Da. unfold byte, fld in Da. change (2 ^ (8 * (0 + 0))) with 1 in Da. change (2 ^ (8 * 0)) with 1 in Da. rewrite !Z.div_1_r in Da. exact Da. }
  assert (P : forall c, (t + 2 <= c <= t + 7)%nat -> sent fs c).
  { intros c Hc. replace c with (S t + (c - t - 2) + 1)%nat by lia. apply (sent_range D s inp reg idle pin Tr); [replace (S t + 1)%nat with (t + 2)%nat by lia; exact S0|]. intros x Hx. apply Nx; lia. }
  pose proof (sent_write D s inp reg idle pin HD Tr fs (t + 6)) as Sw. replace (t + 6 + 1)%nat with (t + 7)%nat in Sw by lia. replace (t + 6 + 2)%nat with (t + 8)%nat in Sw by lia.
  specialize (Sw (P (t + 7)%nat ltac:(lia)) W). rewrite Dm in Sw.
  set (fs' := if silent D fs (t + 7) then ((t + 8)%nat, d mod 256) :: fs else fs) in *.
  assert (P' : forall c, (t + 8 <= c <= t' + 2)%nat -> sent fs' c).
  { intros c Hc. replace c with ((t + 7) + (c - t - 8) + 1)%nat by lia. apply (sent_range D s inp reg idle pin Tr); [replace (t + 7 + 1)%nat with (t + 8)%nat by lia; exact Sw|]. intros x Hx. apply Nx; lia. }
  split; [apply P'; lia|]. intros c Hc. destruct (Nat.lt_ge_cases c (t + 8)) as [L|L].
  - assert (Eo : line_of D fs' c = line_of D fs c /\ silent D fs' c = silent D fs c).
    { unfold fs'. destruct (silent D fs (t + 7)); [|split; reflexivity]. split; [apply line_old|apply silent_old]; lia. }
    destruct Eo as [-> ->]. split; [apply (sent_pin D s inp reg idle pin HD Tr), P; lia|apply P; lia].
  - split; [apply (sent_pin D s inp reg idle pin HD Tr), P'; lia|apply P'; lia].
Qed.
Lemma frames_old fs f d c : (c < f)%nat -> line_of D fs c = line_of D ((f, d) :: fs) c /\ silent D fs c = silent D ((f, d) :: fs) c.
Proof. intros H. split; symmetry; [apply line_old|apply silent_old]; exact H. Qed.
Lemma frames_sim n : (forall j, (j < n)%nat -> reaches ram phys bus mapped (sim j)) -> mapped (pc (fst (snd (sim n))) / 4) = true ->
  let fs := frames ram phys line bus sim reg D n in
  sent fs (fst (sim n) + 2) /\ forall c, (c <= fst (sim n) + 2)%nat -> pin c = line_of D fs c /\ idle c = silent D fs c.
Proof.
  induction n as [|n IH]; intros R P.
  - destruct (io_sim mapped ram phys wait s inp m0 K Sl An 0 R P) as [Is Nf]. destruct (sim 0) as [t [a m]] eqn:E. cbn [fst] in *. destruct Is as (F & _). cbn [frames].
    assert (N : forall u w', (u < t)%nat -> ~ fetch_done s inp u w').
    { intros u w' Hu (C1 & U1 & A1 & _). destruct Nf as [_ Cn]. pose proof (fetches_mono s inp (S u) (t - S u)) as Mo. replace (S u + (t - S u))%nat with t in Mo by lia.
      rewrite fetches_S, C1, U1, A1, Cn in Mo. cbn [andb] in Mo. lia. }
    assert (Nw : forall v, (v <= t)%nat -> ~ writes_at s inp reg v).
    { intros v Hv ((C & _) & We & _). rewrite (starts_first s inp K t _ F N v Hv C) in We. discriminate. }
    assert (S1 : sent [] 1) by (split; [apply (tr_first _ _ _ _ _ _ Tr); lia|exact I]).
    assert (Sc : forall c, (1 <= c <= t + 2)%nat -> sent [] c).
    { intros c Hc. replace c with (0 + (c - 1) + 1)%nat by lia. apply (sent_range D s inp reg idle pin Tr); [exact S1|]. intros x Hx. apply Nw. lia. }
    split; [apply Sc; lia|]. intros c Hc. destruct c as [|c].
    + assert (I0 : idle 0%nat = true) by (apply (tr_first _ _ _ _ _ _ Tr); lia). split; [apply (tr_high _ _ _ _ _ _ Tr), I0|exact I0].
    + split; [apply (sent_pin D s inp reg idle pin HD Tr), Sc; lia|apply Sc; lia].
  - assert (Rn : reaches ram phys bus mapped (sim n)) by (apply R; lia).
    destruct (io_sim mapped ram phys wait s inp m0 K Sl An n) as [Is Nf]; [intros j Hj; apply R; lia|exact (proj1 Rn)|].
    destruct IH as [Sn Ln]; [intros j Hj; apply R; lia|exact (proj1 Rn)|].
    destruct (io_step_sim mapped ram phys wait s inp m0 K Sl An (sim n) Is Rn P) as (_ & X & _). change (io_clock_step ram phys wait line bus (sim n)) with (sim (S n)) in X.
    pose proof (one_sends _ _ _ _ X Sn) as O. cbv zeta in O. cbn [frames]. rewrite (driven_stored ram phys s inp m0 K (sim n) Is).
    set (fs := frames ram phys line bus sim reg D n) in *. set (t := fst (sim n)) in *. set (t' := fst (sim (S n))) in *.
    assert (Old : forall ea d c, (c <= t + 2)%nat -> pin c = line_of D (if reg ea && silent D fs (t + 7) then ((t + 8)%nat, d mod 256) :: fs else fs) c /\ idle c = silent D (if reg ea && silent D fs (t + 7) then ((t + 8)%nat, d mod 256) :: fs else fs) c).
    { intros ea d c Hc. destruct (Ln c Hc) as [E1 E2]. destruct (reg ea && silent D fs (t + 7)); [|split; assumption]. rewrite line_old, silent_old by lia. split; assumption. }
    destruct (stored s inp t (word_at ram phys bus (sim n))) as [[[ea k] d]|].
    + replace (t + 6 + 1)%nat with (t + 7)%nat by lia. replace (t + 6 + 2)%nat with (t + 8)%nat by lia. destruct O as [O1 O2]. split; [exact O1|].
      intros c Hc. destruct (Nat.le_ge_cases c (t + 2)) as [L|L]; [apply Old; exact L|apply O2; lia].
    + destruct O as [O1 O2]. split; [exact O1|]. intros c Hc. destruct (Nat.le_ge_cases c (t + 2)) as [L|L]; [apply Ln; exact L|apply O2; lia].
Qed.
End Sims.

(** ** Programs that use only the RAM, output registers, an input register, and the transmitter *)
Section Closed.
Variables (mapped ram : Z -> bool) (phys : Z -> Z) (wait : latency) (s : state) (inp : nat -> input) (m0 : Z -> Z).
Hypothesis (K : ok s inp) (Sl : ram_slave ram phys s inp m0) (An : answers_exactly mapped wait s inp).
Variables (gin : Z -> bool) (N : nat) (pins : nat -> Z).
Local Notation bus := (fun c => dat_r (inp c)).
Local Notation line := (fun c => irq (inp c)).
Local Notation sim := (io_clocked ram phys wait line bus (boot_arch s) m0).
Local Notation nobody := (fun _ : nat => false).
Local Notation late := (fun c : nat => pins (c - N)%nat).
Local Notation csim := (io_clocked ram phys wait nobody late (boot_arch s) m0).
Hypotheses (Gin : forall ea, gin ea = true -> ea mod 4 = 0) (Nw : forall t ea, gin ea = true -> wait t (ea / 4) false = N)
  (In : forall v, let b := run s inp v in request_starts s inp v -> o_we b = false -> gin (4 * o_adr b) = true -> Z.testbit (o_sel b) 0 = true -> dat_r (inp (v + N)%nat) = pins v).
Lemma frames_ext reg D n : (forall j, (j < n)%nat -> settled mapped ram gin phys (csim j)) -> (forall j, (j < n)%nat -> sim j = csim j) ->
  frames ram phys line bus sim reg D n = frames ram phys nobody late csim reg D n.
Proof.
  intros St Eq. induction n as [|n IH]; [reflexivity|]. cbn [frames]. rewrite IH by (intros j Hj; first [apply St|apply Eq]; lia).
  rewrite Eq by lia. rewrite (settled_driven mapped ram phys inp gin N pins) by (apply St; lia). reflexivity.
Qed.
Theorem closed_line : forall D reg idle pin, 1 <= D -> (forall ea, reg ea = true -> ea mod 4 = 0) -> transmitter D s inp reg idle pin ->
  forall n, (forall j, (j < n)%nat -> settled mapped ram gin phys (csim j)) -> mapped (pc (fst (snd (csim n))) / 4) = true ->
  forall c, (c <= fst (csim n) + 2)%nat -> let fs := frames ram phys nobody late csim reg D n in pin c = line_of D fs c /\ idle c = silent D fs c.
Proof.
  intros D reg idle pin HD Rg Tr n St Mp c Hc.
  destruct (closed_sim mapped ram phys wait s inp m0 K Sl An gin N pins Gin Nw In n St Mp) as [_ Eq].
  assert (Re : forall j, (j < n)%nat -> reaches ram phys bus mapped (sim j)).
  { intros j Hj. rewrite Eq by lia. apply (settled_reaches mapped ram phys inp gin), St, Hj. }
  assert (Mr : mapped (pc (fst (snd (sim n))) / 4) = true) by (rewrite Eq by lia; exact Mp).
  destruct (frames_sim mapped ram phys wait s inp m0 K Sl An D reg idle pin HD Rg Tr n Re Mr) as [_ L]. cbv zeta in *.
  rewrite (frames_ext reg D n St) in L by (intros j Hj; apply Eq; lia). apply L. rewrite Eq by lia. exact Hc.
Qed.
End Closed.

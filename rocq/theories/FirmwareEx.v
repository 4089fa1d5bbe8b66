(** * Instances of C63 and C64: histories that meet their hypotheses *)
From Coq Require Import ZArith Lia Bool List.
From Verif Require Import Bits BitLemmas SocMem Uart Periph SocIo CsrBus Firmware FirmwareSys.
Import ListNotations.
Open Scope Z_scope.

(** ** Periodic environments *)
Section Periodic.
Variables (X W : Type) (step : X -> W -> X) (x0 : X) (ev : Z -> W) (norm : X -> X) (P : Z).
Hypothesis (HP : 1 <= P) (Hn : forall x y w, norm x = norm y -> norm (step x w) = norm (step y w)) (Hi : forall x, norm (norm x) = norm x).
Let e (t : nat) := ev (Z.of_nat t mod P).
Fixpoint psys (t : nat) : X := match t with O => x0 | S u => step (psys u) (e u) end.
Fixpoint trace (n : nat) (z : Z) (x : X) : list X :=
  match n with O => [] | S m => x :: trace m (if z + 1 =? P then 0 else z + 1) (norm (step x (ev z))) end.
Lemma trace_ok n : forall t, map norm (trace n (Z.of_nat t mod P) (norm (psys t))) = map (fun u => norm (psys u)) (seq t n).
Proof.
  induction n as [|n IH]; intros t; [reflexivity|]. cbn [trace map seq]. f_equal; [apply Hi|]. rewrite <- IH. f_equal.
  assert (Z.of_nat (S t) mod P = if Z.of_nat t mod P + 1 =? P then 0 else Z.of_nat t mod P + 1) as <-.
  { rewrite Nat2Z.inj_succ. unfold Z.succ. rewrite <- Z.add_mod_idemp_l by lia. pose proof (Z.mod_pos_bound (Z.of_nat t) P ltac:(lia)) as B.
    destruct (Z.eqb_spec (Z.of_nat t mod P + 1) P) as [->|N]; [apply Z_mod_same_full|apply Z.mod_small; lia]. }
  f_equal. cbn [psys]. apply Hn. apply Hi.
Qed.
Lemma recur t0 p : (Z.of_nat p mod P = 0) -> norm (psys (t0 + p)) = norm (psys t0) -> forall k j, norm (psys (t0 + j + k * p)) = norm (psys (t0 + j)).
Proof.
  intros Hp Hr. assert (G : forall j, norm (psys (t0 + p + j)) = norm (psys (t0 + j))).
  { induction j as [|j IH]; [rewrite !Nat.add_0_r; exact Hr|]. rewrite !Nat.add_succ_r. cbn [psys]. replace (e (t0 + p + j)) with (e (t0 + j)); [apply Hn, IH|].
    unfold e. f_equal. replace (t0 + p + j)%nat with (t0 + j + p)%nat by lia. rewrite (Nat2Z.inj_add (t0 + j) p). rewrite <- Z.add_mod_idemp_r by lia. rewrite Hp, Z.add_0_r. reflexivity. }
  induction k as [|k IH]; intros j; [rewrite Nat.add_0_r; reflexivity|].
  rewrite <- (IH j). replace (t0 + j + S k * p)%nat with (t0 + p + (j + k * p))%nat by lia. replace (t0 + j + k * p)%nat with (t0 + (j + k * p))%nat by lia. apply G.
Qed.

(** Checks that need look only at the beginning of a history. *)
Variables (t0 p : nat).
Hypothesis (Hp : Z.of_nat p mod P = 0) (Hp1 : (0 < p)%nat) (Hr : norm (psys (t0 + p)) = norm (psys t0)).
Lemma fold_back t : exists t', (t' < t0 + p)%nat /\ forall j, norm (psys (t + j)) = norm (psys (t' + j)).
Proof.
  destruct (Nat.lt_ge_cases t (t0 + p)) as [L|L]; [exists t; auto|].
  exists (t0 + (t - t0) mod p)%nat. pose proof (Nat.mod_upper_bound (t - t0) p ltac:(lia)) as B. split; [lia|]. intros j.
  pose proof (Nat.div_mod (t - t0) p ltac:(lia)) as E. replace (t + j)%nat with (t0 + ((t - t0) mod p + j) + ((t - t0) / p) * p)%nat by nia.
  rewrite (recur t0 p Hp Hr). f_equal. f_equal. lia.
Qed.
Lemma again c : forall t, exists u, (t <= u)%nat /\ norm (psys u) = norm (psys (t0 + c)) /\ exists k, u = (t0 + c + k * p)%nat.
Proof. intros t. exists (t0 + c + t * p)%nat. split; [nia|]. split; [apply (recur t0 p Hp Hr)|exists t; reflexivity]. Qed.
(** [a] followed by [b] means [c] within [w] cycles. *)
Fixpoint follows (a b c : X -> bool) (w : nat) (l : list X) : bool :=
  match l with
  | x :: ((y :: _) as r) => (if a x && b y then existsb c (firstn w r) else true) && follows a b c w r
  | _ => true
  end.
Lemma follows_ok a b c w l : follows a b c w l = true -> forall i, (S i < length l)%nat -> forall d, a (nth i l d) = true -> b (nth (S i) l d) = true ->
  exists j, (S i <= j < S i + w)%nat /\ (j < length l)%nat /\ c (nth j l d) = true.
Proof.
  induction l as [|x l IH]; intros F i Hl d A B; [cbn in Hl; lia|]. destruct l as [|y l]; [cbn in Hl; lia|]. cbn [follows] in F. apply andb_prop in F. destruct F as [F1 F2].
  destruct i as [|i].
  - cbn [nth] in A, B. rewrite A, B in F1. cbn [andb] in F1. apply existsb_exists in F1. destruct F1 as (z & I & C).
    apply (In_nth _ _ d) in I. destruct I as (j & Lj & E). exists (S j). pose proof (firstn_le_length w (y :: l)) as L1. rewrite firstn_length in Lj. split; [lia|]. split; [cbn in *; lia|].
    change (c (nth j (y :: l) d) = true). rewrite <- E in C. rewrite <- (firstn_skipn w (y :: l)). rewrite app_nth1; [exact C|]. rewrite firstn_length. exact Lj.
  - destruct (IH F2 i ltac:(cbn in *; lia) d A B) as (j & L1 & L2 & C). exists (S j). cbn [length] in *. split; [lia|]. split; [lia|exact C].
Qed.
Lemma check a b c w : (forall x, a (norm x) = a x) -> (forall x, b (norm x) = b x) -> (forall x, c (norm x) = c x) ->
  follows a b c w (map norm (trace (t0 + p + S w) 0 (norm x0))) = true ->
  forall u, a (psys u) = true -> b (psys (S u)) = true -> exists v, (S u <= v < S u + w)%nat /\ c (psys v) = true.
Proof.
  intros Ha Hb Hc F u A B. destruct (fold_back u) as (u' & Lu & E).
  pose proof (trace_ok (t0 + p + S w) 0) as T. rewrite Z.mod_0_l in T by lia. cbn [psys] in T. rewrite T in F. clear T.
  set (l := map (fun u => norm (psys u)) (seq 0 (t0 + p + S w))) in F.
  assert (N : forall i, (i < t0 + p + S w)%nat -> nth i l (norm x0) = norm (psys i)).
  { intros i Hl. unfold l. rewrite (nth_indep _ _ (norm (psys 0))) by (rewrite map_length, seq_length; exact Hl). rewrite (map_nth (fun u => norm (psys u))). rewrite seq_nth by exact Hl. reflexivity. }
  assert (Ll : length l = (t0 + p + S w)%nat) by (unfold l; rewrite map_length, seq_length; reflexivity).
  destruct w as [|w']; [|set (w := S w') in *].
  - exfalso. destruct (follows_ok a b c 0 l F u' ltac:(lia) (norm x0)) as (j & L & _); [| |lia].
    + rewrite N by lia. rewrite <- (Nat.add_0_r u'). rewrite <- E, Nat.add_0_r, Ha. exact A.
    + rewrite N by lia. replace (S u') with (u' + 1)%nat by lia. rewrite <- E. replace (u + 1)%nat with (S u) by lia. rewrite Hb. exact B.
  - destruct (follows_ok a b c w l F u' ltac:(lia) (norm x0)) as (j & L & L2 & C).
    + rewrite N by lia. rewrite <- (Nat.add_0_r u'). rewrite <- E, Nat.add_0_r, Ha. exact A.
    + rewrite N by lia. replace (S u') with (u' + 1)%nat by lia. rewrite <- E. replace (u + 1)%nat with (S u) by lia. rewrite Hb. exact B.
    + rewrite N in C by lia. exists (u + (j - u'))%nat. split; [lia|]. rewrite <- Hc, E. replace (u' + (j - u'))%nat with j by lia. exact C.
Qed.
End Periodic.

(** ** A history that goes on forever *)
(** Divisor 64.  Every 1024 cycles the firmware prints an "A" and the terminal sends a "b"; interrupts
    are taken whenever there is one, and every step of the program takes one cycle. *)
Definition ex_todo (i : nat) : Z := 0x41.
Definition ex_mv (z : Z) : move := if z =? 0 then Wait else if z =? 900 then Go else Interrupt.
Definition ex_send (z : Z) : bool := z =? 5.
Definition ex_rdy (t : nat) : bool := ex_send (Z.of_nat t mod 1024).
Definition ex_data (t : nat) : Z := 0x62.
Definition ex_env (z : Z) (rx : bool) : env := {| e_move := ex_mv z; e_rx := rx; e_timer := false; e_ack := true; e_pins := 0x5A |}.
Definition ex_e (t : nat) : env := ex_env (Z.of_nat t mod 1024) (l_line 64 8 ex_rdy ex_data t).
Definition drv_norm (d : drv) : drv := {| d_pc := d_pc d; d_busy := d_busy d; d_queue := d_queue d; d_n := O; d_sets := [] |}.
Lemma drv_norm_step x y o irq ack dat : drv_norm x = drv_norm y -> drv_norm (dstep ex_todo x o irq ack dat) = drv_norm (dstep ex_todo y o irq ack dat) /\ pc_op ex_todo x = pc_op ex_todo y.
Proof.
  destruct x as [xp xb xq xn xs], y as [yp yb yq yn ys]. unfold drv_norm. cbn [d_pc d_busy d_queue d_n d_sets]. intros E. injection E as -> -> ->. split; [|reflexivity].
  unfold dstep, ex_todo, at_. cbn [d_pc d_busy d_queue d_n d_sets]. destruct yp; try destruct o; try destruct irq; try destruct ack; try destruct yb; try destruct (Nat.ltb _ _); try destruct (Z.testbit v 1); try destruct yq; try reflexivity; destruct (Z.testbit v 0); reflexivity.
Qed.
Section Sys.
Variables (Y : Type) (step : drv * Y -> env -> drv * Y) (y0 : Y).
Definition xst := (txst * (drv * Y))%type.
Definition x_step (x : xst) (z : Z) : xst := (tx_step 64 8 (fst x) (ex_send z) 0x62, step (snd x) (ex_env z (tx_o (fst x)))).
Definition x_norm (x : xst) : xst := (fst x, (drv_norm (fst (snd x)), snd (snd x))).
Definition x0 : xst := (tx_init 8, (drv0, y0)).
Fixpoint d_sys (t : nat) : drv * Y := match t with O => (drv0, y0) | S u => step (d_sys u) (ex_e u) end.
Lemma xsys t : psys xst Z x_step x0 (fun z => z) 1024 t = (l_tx 64 8 ex_rdy ex_data t, d_sys t).
Proof. induction t as [|t IH]; [reflexivity|]. cbn [psys]. rewrite IH. unfold x_step. cbn [fst snd d_sys]. f_equal. Qed.
End Sys.
Definition wx := x_step serial (wb_step 64 ex_todo).
Definition cx := x_step csrp (csr_step 64 ex_todo).
Lemma wx_norm x y w : x_norm _ x = x_norm _ y -> x_norm _ (wx x w) = x_norm _ (wx y w).
Proof.
  destruct x as [xt [xd xs]], y as [yt [yd ys]]. unfold x_norm. cbn [fst snd]. intros E. injection E as -> E1 E2 E3 ->.
  assert (E : drv_norm xd = drv_norm yd) by (unfold drv_norm; congruence). unfold wx, x_step, wb_step. cbn [fst snd].
  match goal with |- context [dstep ex_todo xd ?o ?i _ ?k] => pose proof (drv_norm_step xd yd o i true k E) as [_ P]; rewrite P; f_equal; f_equal; apply (drv_norm_step xd yd o i _ k E) end.
Qed.
Lemma cx_norm x y w : x_norm _ x = x_norm _ y -> x_norm _ (cx x w) = x_norm _ (cx y w).
Proof.
  destruct x as [xt [xd xs]], y as [yt [yd ys]]. unfold x_norm. cbn [fst snd]. intros E. injection E as -> E1 E2 E3 ->.
  assert (E : drv_norm xd = drv_norm yd) by (unfold drv_norm; congruence). unfold cx, x_step, csr_step. cbn [fst snd].
  match goal with |- context [dstep ex_todo xd ?o ?i ?a ?k] => pose proof (drv_norm_step xd yd o i a k E) as [N P]; rewrite P; f_equal; f_equal; exact N end.
Qed.
Lemma norm_idem Y x : x_norm Y (x_norm Y x) = x_norm Y x. Proof. reflexivity. Qed.

(** From the finite checks to the whole history. *)
Definition x_trace (Y : Type) (step : drv * Y -> env -> drv * Y) (y0 : Y) (n : nat) : list (xst Y) :=
  map (x_norm Y) (trace (xst Y) Z (x_step Y step) (fun z => z) (x_norm Y) 1024 n 0 (x_norm Y (x0 Y y0))).
Definition checked (Y : Type) (step : drv * Y -> env -> drv * Y) (y0 : Y) (t0 p : nat) (full : Y -> bool) (reads : drv -> bool) : Prop :=
  let l := x_trace Y step y0 (t0 + p + 33) in let dflt := x_norm Y (x0 Y y0) in let pc_at i := d_pc (fst (snd (nth i l dflt))) in
  nth (t0 + p) l dflt = nth t0 l dflt /\ pc_at (t0 + 100)%nat = Main /\ pc_at (t0 + 901)%nat = Cs /\
  follows (xst Y) (fun x => negb (full (snd (snd x)))) (fun x => full (snd (snd x))) (fun x => reads (fst (snd x))) 32 l = true.
Section Forever.
Variables (Y : Type) (step : drv * Y -> env -> drv * Y) (y0 : Y) (t0 p : nat) (full : Y -> bool) (reads : drv -> bool).
Let xs := x_step Y step.
Hypothesis (Hn : forall x y w, x_norm Y x = x_norm Y y -> x_norm Y (xs x w) = x_norm Y (xs y w)) (Hq : forall d, reads (drv_norm d) = reads d).
Let l := x_trace Y step y0 (t0 + p + 33).
Let dflt := x_norm Y (x0 Y y0).
Let pc_at (i : nat) := d_pc (fst (snd (nth i l dflt))).
Hypothesis (Hr : checked Y step y0 t0 p full reads) (Lp : (1000 < p)%nat).
Hypothesis (Hp : (Z.of_nat p mod 1024 = 0) /\ (0 < p)%nat /\ Z.of_nat t0 mod 1024 = 0).
Lemma in_trace i : (i < t0 + p + 33)%nat -> nth i l dflt = x_norm Y (psys (xst Y) Z xs (x0 Y y0) (fun z => z) 1024 i).
Proof.
  intros Hi. unfold l, x_trace. fold xs. pose proof (trace_ok (xst Y) Z xs (x0 Y y0) (fun z => z) (x_norm Y) 1024 ltac:(lia) Hn (norm_idem Y) (t0 + p + 33) 0) as T. rewrite Z.mod_0_l in T by lia. cbn [psys] in T. rewrite T.
  set (g := fun u => x_norm Y (psys (xst Y) Z xs (x0 Y y0) (fun z => z) 1024 u)). change dflt with (g 0%nat). rewrite (map_nth g). rewrite seq_nth by exact Hi. reflexivity.
Qed.
Lemma recurs : x_norm Y (psys (xst Y) Z xs (x0 Y y0) (fun z => z) 1024 (t0 + p)) = x_norm Y (psys (xst Y) Z xs (x0 Y y0) (fun z => z) 1024 t0).
Proof. rewrite <- !in_trace by lia. apply Hr. Qed.
Lemma often c : (c < p)%nat -> forall t, exists u, (t <= u)%nat /\ d_pc (fst (d_sys Y step y0 u)) = pc_at (t0 + c) /\ Z.of_nat u mod 1024 = Z.of_nat c mod 1024.
Proof.
  intros Hc t. destruct Hp as (P1 & P2 & P3). destruct (again (xst Y) Z xs (x0 Y y0) (fun z => z) (x_norm Y) 1024 ltac:(lia) Hn t0 p P1 P2 recurs c t) as (u & L & E & k & Ek).
  exists u. split; [exact L|]. split.
  - unfold pc_at. rewrite in_trace by lia. rewrite <- E. unfold xs. rewrite xsys. reflexivity.
  - rewrite Ek. replace (Z.of_nat (t0 + c + k * p)) with (Z.of_nat t0 + (Z.of_nat c + Z.of_nat k * Z.of_nat p)) by lia.
    rewrite <- Z.add_mod_idemp_l, P3, Z.add_0_l by lia. rewrite <- Z.add_mod_idemp_r by lia. rewrite <- Z.mul_mod_idemp_r, P1, Z.mul_0_r, Z.mod_0_l, Z.add_0_r by lia. reflexivity.
Qed.
Lemma ex_fair : fair (fun t => e_move (ex_e t)) (fun t => fst (d_sys Y step y0 t)).
Proof.
  destruct Hr as (_ & R1 & R2 & _). split; intros t.
  - destruct (often 100 ltac:(lia) t) as (u & L & E & M). exists u. split; [exact L|]. split; [rewrite E; exact R1|]. unfold ex_e, ex_env. cbn [e_move]. rewrite M. reflexivity.
  - destruct (often 901 ltac:(lia) t) as (u & L & E & M). exists u. split; [exact L|]. split; [rewrite E; exact R2|]. unfold ex_e, ex_env. cbn [e_move]. rewrite M. discriminate.
Qed.
Lemma ex_prompt : (forall t, full (snd (d_sys Y step y0 t)) = rx_rdy (l_rx 64 8 ex_rdy ex_data (fun u => reads (fst (d_sys Y step y0 u))) t)) ->
  prompt 64 8 ex_rdy ex_data (fun t => reads (fst (d_sys Y step y0 t))).
Proof.
  intros E u A B. destruct Hp as (P1 & P2 & P3). destruct Hr as (_ & _ & _ & F). rewrite <- E in A, B. change (Z.to_nat (64 - 64 / 2)) with 32%nat.
  destruct (check (xst Y) Z xs (x0 Y y0) (fun z => z) (x_norm Y) 1024 ltac:(lia) Hn (norm_idem Y) t0 p P1 P2 recurs
    (fun x => negb (full (snd (snd x)))) (fun x => full (snd (snd x))) (fun x => reads (fst (snd x))) 32
    (fun x => eq_refl) (fun x => eq_refl) (fun x => Hq (fst (snd x))) F u) as (v & L & C); unfold xs in *; rewrite ?xsys in *.
  - cbn [snd]. rewrite A. reflexivity.
  - exact B.
  - exists v. split; [exact L|exact C].
Qed.
End Forever.
Lemma d_wb t : d_sys serial (wb_step 64 ex_todo) serial_init t = wb_sys 64 ex_todo ex_e t.
Proof. induction t as [|t IH]; [reflexivity|]. cbn [d_sys wb_sys]. rewrite IH. reflexivity. Qed.
Lemma d_csr t : d_sys csrp (csr_step 64 ex_todo) csrp_init t = csr_sys 64 ex_todo ex_e t.
Proof. induction t as [|t IH]; [reflexivity|]. cbn [d_sys csr_sys]. rewrite IH. reflexivity. Qed.

Lemma wb_checked : checked serial (wb_step 64 ex_todo) serial_init 2048 1024 (fun q => rx_rdy (sr_rx q)) (reads_data ex_todo).
Proof. vm_compute. repeat split. Qed.
Definition c_t0 : nat := Z.to_nat 32768.
Definition c_p : nat := Z.to_nat 16384.
Lemma csr_checked : checked csrp (csr_step 64 ex_todo) csrp_init c_t0 c_p (fun q => rx_rdy (cs_rx (cp_serial q))) (begins_reading ex_todo).
Proof. vm_compute. repeat split. Qed.
Lemma ex_line t : e_rx (ex_e t) = l_line 64 8 ex_rdy ex_data t. Proof. reflexivity. Qed.
(** Hypotheses of C63 and C64, over the whole of the history. *)
Lemma fair_ext mv d d' : (forall t, d t = d' t) -> fair mv d -> fair mv d'.
Proof. intros E [F1 F2]. split; intros t; [destruct (F1 t) as (u & L & M)|destruct (F2 t) as (u & L & M)]; exists u; rewrite <- E; split; assumption. Qed.
Lemma prompt_ext D n rdy data a a' : (forall t, a t = a' t) -> prompt D n rdy data a -> prompt D n rdy data a'.
Proof.
  intros E Pr u. assert (X : forall t, l_rx D n rdy data a' t = l_rx D n rdy data a t) by (intros t; apply rx_run_ext; auto). rewrite !X. intros A B. destruct (Pr u A B) as (v & L & C). exists v. rewrite <- E. split; assumption.
Qed.
Lemma wb_history : let dr t := fst (wb_sys 64 ex_todo ex_e t) in
  fair (fun t => e_move (ex_e t)) dr /\ prompt 64 8 ex_rdy ex_data (fun t => reads_data ex_todo (dr t)).
Proof.
  intros dr. assert (E : forall t, fst (d_sys serial (wb_step 64 ex_todo) serial_init t) = dr t) by (intros t; rewrite d_wb; reflexivity).
  assert (Hp : Z.of_nat 1024 mod 1024 = 0 /\ (0 < 1024)%nat /\ Z.of_nat 2048 mod 1024 = 0) by (split; [reflexivity|]; split; [lia|reflexivity]).
  assert (Lp : (1000 < 1024)%nat) by lia. split.
  - eapply fair_ext; [exact E|].
    refine (ex_fair serial (wb_step 64 ex_todo) serial_init 2048 1024 (fun q => rx_rdy (sr_rx q)) (reads_data ex_todo) wx_norm wb_checked Lp Hp).
  - eapply prompt_ext; [intros t; rewrite <- E; reflexivity|].
    refine (ex_prompt serial (wb_step 64 ex_todo) serial_init 2048 1024 (fun q => rx_rdy (sr_rx q)) (reads_data ex_todo) wx_norm (fun d => eq_refl) wb_checked Lp Hp _).
    intros t. rewrite d_wb. unfold l_rx. rewrite (wb_rx 64 ex_todo ex_e). f_equal. apply rx_run_ext; [reflexivity|]. intros u. rewrite d_wb. apply wb_rx_ack.
Qed.
Lemma csr_history : let dr t := fst (csr_sys 64 ex_todo ex_e t) in
  fair (fun t => e_move (ex_e t)) dr /\ prompt 64 8 ex_rdy ex_data (fun t => begins_reading ex_todo (dr t)).
Proof.
  intros dr. assert (E : forall t, fst (d_sys csrp (csr_step 64 ex_todo) csrp_init t) = dr t) by (intros t; rewrite d_csr; reflexivity).
  assert (Hp : Z.of_nat c_p mod 1024 = 0 /\ (0 < c_p)%nat /\ Z.of_nat c_t0 mod 1024 = 0) by (unfold c_p, c_t0; rewrite !Z2Nat.id by lia; split; [reflexivity|]; split; [lia|reflexivity]).
  assert (Lp : (1000 < c_p)%nat) by (unfold c_p; lia). split.
  - eapply fair_ext; [exact E|].
    refine (ex_fair csrp (csr_step 64 ex_todo) csrp_init c_t0 c_p (fun q => rx_rdy (cs_rx (cp_serial q))) (begins_reading ex_todo) cx_norm csr_checked Lp Hp).
  - eapply prompt_ext; [intros t; rewrite <- E; reflexivity|].
    refine (ex_prompt csrp (csr_step 64 ex_todo) csrp_init c_t0 c_p (fun q => rx_rdy (cs_rx (cp_serial q))) (begins_reading ex_todo) cx_norm (fun d => eq_refl) csr_checked Lp Hp _).
    intros t. rewrite d_csr. unfold l_rx. rewrite (csr_rx 64 ex_todo ex_e) by (intros; cbn; lia). f_equal. apply rx_run_ext; [reflexivity|]. intros u. rewrite d_csr, csr_reading. unfold begins_reading. destruct (pc_op ex_todo _) as [[[| | |b|[w|]] [|k]]|]; reflexivity.
Qed.
Lemma C63_applies : (1 <= 64) /\ (forall i, 0 <= ex_todo i < 256) /\ e_move (ex_e 0%nat) = Wait /\ (forall t, 0 <= e_pins (ex_e t) < 256) /\ (forall t, 0 <= ex_data t < 256) /\
  fair (fun t => e_move (ex_e t)) (fun t => fst (wb_sys 64 ex_todo ex_e t)) /\ fair (fun t => e_move (ex_e t)) (fun t => fst (csr_sys 64 ex_todo ex_e t)).
Proof. repeat split; try lia; try (unfold ex_todo, ex_data; lia); try (cbn; lia); try apply wb_history; apply csr_history. Qed.
(** ** A short history in which the queue is used *)
(** "Hello!" is printed at once; after 800 cycles the first two bytes have been given to the
    transmitter, the rest are queued, and the "b" from the terminal has been stored. *)
Definition hello (i : nat) : Z := nth i [0x48; 0x65; 0x6C; 0x6C; 0x6F; 0x21] 0x2E.
Definition h_e (t : nat) : env :=
  {| e_move := if Nat.eqb t 0 then Wait else if Nat.ltb t 22 then Go else Interrupt; e_rx := l_line 64 8 ex_rdy ex_data t; e_timer := false; e_ack := true; e_pins := 0 |}.
Lemma hello_run : fst (wb_sys 64 hello h_e 800) = {| d_pc := Main; d_busy := true; d_queue := [0x6C; 0x6C; 0x6F; 0x21]; d_n := 6; d_sets := [0x62] |}.
Proof. vm_compute. reflexivity. Qed.

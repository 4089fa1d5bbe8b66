(** * The UART of the example SoC (examples/attosoc.py:454-543): framing, reception, loopback *)
From Coq Require Import ZArith Lia Bool.
From Verif Require Import Bits.
Open Scope Z_scope.

(** ** Model.  [D] is [divisor], [n] is [data_bits]; the shift registers are [n + 2] bits long. *)
(** Synchronous state of the transmitter (attosoc.py:489-491). *)
Record txst := { tx_phase : Z; tx_shreg : Z; tx_count : Z }.
(** Reset values: [reset=-1] is all ones in [n + 2] bits. *)
(** attosoc.py:489-491 *)
Definition tx_init (n : Z) : txst := {| tx_phase := 0; tx_shreg := 2 ^ (n + 2) - 1; tx_count := 0 |}.
(** [tx_o] (attosoc.py:493) and [tx_ack] (attosoc.py:494-495). *)
Definition tx_o (s : txst) : bool := Z.odd (tx_shreg s).
(** attosoc.py:494-495 *)
Definition tx_ack (s : txst) : bool := tx_count s =? 0.
(** One cycle (attosoc.py:494-510). *)
Definition tx_step (D n : Z) (s : txst) (rdy : bool) (data : Z) : txst :=
  if tx_count s =? 0 then
    if rdy then {| tx_shreg := 2 * data + 2 ^ (n + 1); tx_count := n + 2; tx_phase := D - 1 |} else s
  else if negb (tx_phase s =? 0) then
    {| tx_shreg := tx_shreg s; tx_count := tx_count s; tx_phase := tx_phase s - 1 |}
  else
    {| tx_shreg := tx_shreg s / 2 + 2 ^ (n + 1); tx_count := tx_count s - 1; tx_phase := D - 1 |}.

(** Synchronous state of the receiver (attosoc.py:512-514, 482-483). *)
Record rxst := { rx_phase : Z; rx_shreg : Z; rx_count : Z; rx_rdy : bool; rx_ovf : bool }.
(** attosoc.py:512-514, 482-483 *)
Definition rx_init (n : Z) : rxst :=
  {| rx_phase := 0; rx_shreg := 2 ^ (n + 2) - 1; rx_count := 0; rx_rdy := false; rx_ovf := false |}.
(** [rx_data] (attosoc.py:516) and [rx_err] (attosoc.py:517-518). *)
Definition rx_data (n : Z) (s : rxst) : Z := bits (rx_shreg s) 1 n.
(** attosoc.py:518 *)
Definition rx_err (n : Z) (s : rxst) : bool :=
  (rx_count s =? 0) && negb (negb (bitb (rx_shreg s) 0) && bitb (rx_shreg s) (n + 1)).
(** One cycle (attosoc.py:517-541); a later assignment wins. *)
Definition rx_step (D n : Z) (s : rxst) (i ack : bool) : rxst :=
  if rx_count s =? 0 then
    let start := negb i && (ack || negb (rx_rdy s)) in
    {| rx_rdy := if ack then false else if start then false else rx_rdy s;
       rx_ovf := if negb i then negb start else rx_ovf s;
       rx_count := if start then n + 2 else rx_count s;
       rx_phase := if start then D / 2 else rx_phase s;
       rx_shreg := rx_shreg s |}
  else if negb (rx_phase s =? 0) then
    {| rx_phase := rx_phase s - 1; rx_shreg := rx_shreg s; rx_count := rx_count s; rx_rdy := rx_rdy s; rx_ovf := rx_ovf s |}
  else
    {| rx_shreg := rx_shreg s / 2 + 2 ^ (n + 1) * b2z i; rx_count := rx_count s - 1; rx_phase := D - 1;
       rx_rdy := if rx_count s =? 1 then true else rx_rdy s; rx_ovf := rx_ovf s |}.

(** Runs on input waveforms. *)
(** attosoc.py:494-510, cycle after cycle. *)
Fixpoint tx_run (D n : Z) (s : txst) (rdy : nat -> bool) (data : nat -> Z) (t : nat) : txst :=
  match t with O => s | S k => tx_step D n (tx_run D n s rdy data k) (rdy k) (data k) end.
(** attosoc.py:517-541, cycle after cycle. *)
Fixpoint rx_run (D n : Z) (s : rxst) (i ack : nat -> bool) (t : nat) : rxst :=
  match t with O => s | S k => rx_step D n (rx_run D n s i ack k) (i k) (ack k) end.

(** ** Specification: the character frame on the line *)
(** Bit [k] of the frame carrying [d]: a 0 start bit, [n] data bits LSB first, then 1s. *)
Definition frame_bit (n d k : Z) : bool :=
  if k =? 0 then false else if k <=? n then Z.testbit d (k - 1) else true.

(** ** Transmitter *)
Section Tx.
Variables (D n : Z).
Hypothesis (HD : 1 <= D) (Hn : 0 <= n).

Lemma frame_testbit d k : 0 <= d < 2 ^ n -> 0 <= k <= n + 1 -> Z.testbit (2 * d + 2 ^ (n + 1)) k = frame_bit n d k.
Proof.
  intros Hd Hk. unfold frame_bit. destruct (Z.eqb_spec k 0) as [->|H0].
  - replace (2 * d + 2 ^ (n + 1)) with (2 * (d + 2 ^ n)) by (rewrite Z.pow_add_r by lia; lia). apply Z.testbit_even_0.
  - replace (2 * d + 2 ^ (n + 1)) with (2 * (d + 2 ^ n)) by (rewrite Z.pow_add_r by lia; lia).
    replace k with (Z.succ (k - 1)) at 1 by lia. rewrite Z.testbit_even_succ by lia.
    destruct (Z.leb_spec k n).
    + rewrite <- (Z.mod_pow2_bits_low (d + 2 ^ n) n) by lia.
      replace (d + 2 ^ n) with (d + 1 * 2 ^ n) by lia. rewrite Z.mod_add by lia. rewrite Z.mod_small by lia. reflexivity.
    + assert (k - 1 = n) as -> by lia. replace (d + 2 ^ n) with (d + 1 * 2 ^ n) by lia.
      rewrite Z.testbit_odd, Z.shiftr_div_pow2 by lia. rewrite Z.div_add by lia. rewrite Z.div_small by lia. reflexivity.
Qed.

(** Shift register after [k] shifts. *)
Definition sh (F k : Z) : Z := F / 2 ^ k + 2 ^ (n + 2) - 2 ^ (n + 2 - k).
Lemma sh_0 F : sh F 0 = F.
Proof. unfold sh. rewrite Z.pow_0_r, Z.div_1_r, Z.sub_0_r. lia. Qed.
Lemma pow_s a : 0 <= a -> 2 ^ (a + 1) = 2 * 2 ^ a.
Proof. intros Ha. rewrite Z.pow_add_r by lia. lia. Qed.
Lemma sh_eq F k : 0 <= k < n + 2 -> sh F k = F / 2 ^ k + 2 * (2 ^ (n + 1) - 2 ^ (n + 1 - k)).
Proof.
  intros Hk. unfold sh. replace (n + 2) with (n + 1 + 1) at 1 by lia. replace (n + 2 - k) with (n + 1 - k + 1) by lia.
  rewrite !pow_s by lia. lia.
Qed.
Lemma sh_next F k : 0 <= k < n + 2 -> sh F k / 2 + 2 ^ (n + 1) = sh F (k + 1).
Proof.
  intros Hk. rewrite sh_eq by assumption. rewrite (Z.mul_comm 2 (_ - _)), Z.div_add, Z.div_div by lia.
  unfold sh. replace (2 ^ (n + 2)) with (2 * 2 ^ (n + 1)) by (rewrite <- pow_s by lia; f_equal; lia). rewrite (pow_s k) by lia.
  rewrite (Z.mul_comm 2 (2 ^ k)). replace (n + 2 - (k + 1)) with (n + 1 - k) by lia. lia.
Qed.
Lemma sh_odd F k : 0 <= k < n + 2 -> Z.odd (sh F k) = Z.testbit F k.
Proof.
  intros Hk. rewrite sh_eq by assumption. rewrite Z.odd_add_mul_2. rewrite Z.testbit_odd, Z.shiftr_div_pow2 by lia. reflexivity.
Qed.
Lemma sh_end F : 0 <= F < 2 ^ (n + 2) -> sh F (n + 2) = 2 ^ (n + 2) - 1.
Proof. intros HF. unfold sh. rewrite Z.div_small by assumption. rewrite Z.sub_diag, Z.pow_0_r. lia. Qed.

Lemma frame_range d : 0 <= d < 2 ^ n -> 0 <= 2 * d + 2 ^ (n + 1) < 2 ^ (n + 2).
Proof.
  intros Hd. rewrite (Z.pow_add_r 2 n 1), (Z.pow_add_r 2 n 2) by lia. change (2 ^ 1) with 2. change (2 ^ 2) with 4. lia.
Qed.

(** When the transmitter is idle its shift register is all ones. *)
Definition tx_ok (s : txst) : Prop :=
  (tx_count s = 0 /\ tx_shreg s = 2 ^ (n + 2) - 1) \/
  exists F k, 0 <= F < 2 ^ (n + 2) /\ 0 <= k < n + 2 /\ tx_shreg s = sh F k /\ tx_count s = n + 2 - k /\ 0 <= tx_phase s < D.
Lemma tx_ok_init : tx_ok (tx_init n).
Proof. left. split; reflexivity. Qed.
Lemma tx_ok_step s rdy data : tx_ok s -> 0 <= data < 2 ^ n -> tx_ok (tx_step D n s rdy data).
Proof.
  intros [[Hc Hs]|(F & k & HF & Hk & Hs & Hc & Hp)] Hd; unfold tx_step; rewrite Hc.
  - cbn [Z.eqb]. destruct rdy; [right|left; split; assumption].
    exists (2 * data + 2 ^ (n + 1)), 0. cbn [tx_shreg tx_count tx_phase]. rewrite sh_0. pose proof (frame_range data Hd). repeat split; lia.
  - destruct (Z.eqb_spec (n + 2 - k) 0); [lia|]. destruct (Z.eqb_spec (tx_phase s) 0); cbn [negb].
    + destruct (Z.eq_dec (k + 1) (n + 2)) as [E|E].
      * left. cbn [tx_count tx_shreg]. split; [lia|]. rewrite Hs, sh_next by lia. rewrite E. apply sh_end. assumption.
      * right. exists F, (k + 1). cbn [tx_count tx_shreg tx_phase]. rewrite Hs, sh_next by lia. repeat split; lia.
    + right. exists F, k. cbn [tx_count tx_shreg tx_phase]. repeat split; lia.
Qed.
Lemma tx_ok_run rdy data t : (forall u, 0 <= data u < 2 ^ n) -> tx_ok (tx_run D n (tx_init n) rdy data t).
Proof. intros Hd. induction t as [|t IH]; [apply tx_ok_init|]. cbn [tx_run]. apply tx_ok_step; [assumption|apply Hd]. Qed.

Section Sending.
Variables (s0 : txst) (rdy : nat -> bool) (data : nat -> Z).
Let st := tx_run D n s0 rdy data.
Variable t : nat.
Hypothesis (Hidle : tx_count (st t) = 0) (Hr : rdy t = true) (Hd : 0 <= data t < 2 ^ n).
Let F := 2 * data t + 2 ^ (n + 1).

Lemma sending j : Z.of_nat j < (n + 2) * D ->
  let x := st (t + 1 + j) in let z := Z.of_nat j in
  tx_shreg x = sh F (z / D) /\ tx_count x = n + 2 - z / D /\ tx_phase x = D - 1 - z mod D.
Proof.
  induction j as [|j IH]; intros Hj; cbv zeta.
  - replace (t + 1 + 0)%nat with (S t) by lia. cbn [Z.of_nat]. rewrite Z.div_0_l, Z.mod_0_l by lia. unfold st. cbn [tx_run]. fold st.
    unfold tx_step. rewrite Hidle, Hr. cbn [Z.eqb tx_shreg tx_count tx_phase]. rewrite sh_0. repeat split; unfold F; lia.
  - replace (t + 1 + S j)%nat with (S (t + 1 + j)) by lia. unfold st. cbn [tx_run]. fold st.
    destruct IH as (I1 & I2 & I3); [lia|]. rewrite Nat2Z.inj_succ in *. set (z := Z.of_nat j) in *.
    assert (Hz : 0 <= z / D < n + 2). { split; [apply Z.div_pos; lia|]. apply Z.div_lt_upper_bound; lia. }
    pose proof (Z.mod_pos_bound z D ltac:(lia)) as Hm. pose proof (Z.div_mod z D ltac:(lia)) as E.
    unfold tx_step. rewrite I2, I3. destruct (Z.eqb_spec (n + 2 - z / D) 0); [lia|].
    destruct (Z.eqb_spec (D - 1 - z mod D) 0) as [Ep|Ep]; cbn [negb tx_shreg tx_count tx_phase].
    + assert (Es : Z.succ z = (z / D + 1) * D) by lia.
      rewrite Es, Z.div_mul, Z.mod_mul by lia. rewrite I1, sh_next by lia. repeat split; lia.
    + assert (Es : Z.succ z = (z mod D + 1) + (z / D) * D) by lia.
      rewrite Es, Z.div_add, Z.mod_add by lia. rewrite (Z.div_small (z mod D + 1)), (Z.mod_small (z mod D + 1)) by lia.
      repeat split; [rewrite I1; f_equal; lia|lia].
Qed.

Lemma sent : let x := st (t + 1 + Z.to_nat ((n + 2) * D)) in tx_count x = 0 /\ tx_shreg x = 2 ^ (n + 2) - 1.
Proof.
  cbv zeta. assert (Hp : 0 < (n + 2) * D) by nia. set (M := (n + 2) * D) in *.
  replace (t + 1 + Z.to_nat M)%nat with (S (t + 1 + Z.to_nat (M - 1))) by lia. unfold st. cbn [tx_run]. fold st.
  destruct (sending (Z.to_nat (M - 1))) as (I1 & I2 & I3); [fold M; lia|]. rewrite Z2Nat.id in * by lia.
  assert (Eq : M - 1 = (D - 1) + (n + 1) * D) by (unfold M; lia).
  assert (Ed : (M - 1) / D = n + 1). { rewrite Eq, Z.div_add, Z.div_small by lia. lia. }
  assert (Em : (M - 1) mod D = D - 1). { rewrite Eq, Z.mod_add, Z.mod_small by lia. lia. }
  rewrite Ed, Em in *. unfold tx_step. rewrite I1, I2, I3. destruct (Z.eqb_spec (n + 2 - (n + 1)) 0); [lia|].
  replace (D - 1 - (D - 1)) with 0 by lia. cbn [Z.eqb negb tx_count tx_shreg]. split; [lia|].
  rewrite sh_next by lia. replace (n + 1 + 1) with (n + 2) by lia. apply sh_end. apply frame_range. assumption.
Qed.

Lemma sending_line j : Z.of_nat j < (n + 2) * D ->
  tx_o (st (t + 1 + j)) = frame_bit n (data t) (Z.of_nat j / D) /\ tx_ack (st (t + 1 + j)) = false.
Proof.
  intros Hj. destruct (sending j Hj) as (I1 & I2 & _). set (z := Z.of_nat j) in *.
  assert (Hz : 0 <= z / D < n + 2). { split; [apply Z.div_pos; lia|]. apply Z.div_lt_upper_bound; lia. }
  unfold tx_o, tx_ack. rewrite I1, I2, sh_odd by lia. split.
  - apply frame_testbit; [assumption|lia].
  - apply Z.eqb_neq. lia.
Qed.
End Sending.
End Tx.

(** C36: for every divisor, character width, byte and history since reset: a byte offered while
    the transmitter is ready appears on the line as exactly one frame, each bit lasting exactly
    [D] cycles, during which nothing else is accepted; the line idles high. *)
Theorem C36_transmit_framing : forall D n rdy data, 1 <= D -> 0 <= n -> (forall u, 0 <= data u < 2 ^ n) ->
  let st := tx_run D n (tx_init n) rdy data in
  (forall t, tx_ack (st t) = true -> tx_o (st t) = true) /\
  (forall t, tx_ack (st t) = true -> rdy t = false -> tx_ack (st (S t)) = true) /\
  forall t, tx_ack (st t) = true -> rdy t = true ->
    (forall j, Z.of_nat j < (n + 2) * D ->
      tx_o (st (t + 1 + j)%nat) = frame_bit n (data t) (Z.of_nat j / D) /\ tx_ack (st (t + 1 + j)%nat) = false) /\
    tx_ack (st (t + 1 + Z.to_nat ((n + 2) * D))%nat) = true.
Proof.
  intros D n rdy data HD Hn Hd st. split; [|split].
  - intros t A. unfold tx_ack in A. apply Z.eqb_eq in A.
    destruct (tx_ok_run D n HD Hn rdy data t Hd) as [[_ Hs]|(F & k & _ & Hk & _ & Hc & _)].
    + unfold tx_o, st. rewrite Hs. replace (2 ^ (n + 2) - 1) with (1 + 2 * (2 ^ (n + 1) - 1)).
      2:{ replace (n + 2) with (1 + (n + 1)) by lia. rewrite (Z.pow_add_r 2 1) by lia. lia. }
      rewrite Z.odd_add_mul_2. reflexivity.
    + exfalso. unfold st in A. lia.
  - intros t A R. unfold st. cbn [tx_run]. fold st. unfold tx_ack in *. unfold tx_step. rewrite A, R. exact A.
  - intros t A R. unfold tx_ack in A. apply Z.eqb_eq in A. split.
    + intros j Hj. apply (sending_line D n HD Hn (tx_init n) rdy data t A R (Hd t) j Hj).
    + unfold tx_ack. apply Z.eqb_eq. apply (sent D n HD Hn (tx_init n) rdy data t A R (Hd t)).
Qed.

(** ** Receiver *)
Section Rx.
Variables (D n : Z).
Hypothesis (HD : 1 <= D) (Hn : 0 <= n).

(** Shift register after [q] more samples [f 0 .. f (q-1)]. *)
Fixpoint shifts (s : Z) (f : nat -> bool) (q : nat) : Z :=
  match q with O => s | S k => shifts s f k / 2 + 2 ^ (n + 1) * b2z (f k) end.

Lemma shifts_range s f q : 0 <= s < 2 ^ (n + 2) -> 0 <= shifts s f q < 2 ^ (n + 2).
Proof.
  intros Hs. induction q as [|q IH]; [assumption|]. cbn [shifts]. replace (n + 2) with (1 + (n + 1)) in * by lia.
  rewrite (Z.pow_add_r 2 1 (n + 1)) in * by lia. change (2 ^ 1) with 2 in *. pose proof (Z.pow_pos_nonneg 2 (n + 1) ltac:(lia) ltac:(lia)).
  assert (0 <= shifts s f q / 2 < 2 ^ (n + 1)). { split; [apply Z.div_pos; lia|]. apply Z.div_lt_upper_bound; lia. }
  destruct (f q); cbn [b2z]; lia.
Qed.
Lemma shifts_bit s f q i : 0 <= s < 2 ^ (n + 2) -> Z.of_nat q <= n + 2 -> n + 2 - Z.of_nat q <= i < n + 2 ->
  Z.testbit (shifts s f q) i = f (Z.to_nat (i - (n + 2 - Z.of_nat q))).
Proof.
  intros Hs. revert i. induction q as [|q IH]; intros i Hq Hi; [lia|].
  cbn [shifts]. rewrite Nat2Z.inj_succ in *.
  pose proof (shifts_range s f q Hs) as R.
  assert (R2 : 0 <= shifts s f q / 2 < 2 ^ (n + 1)).
  { replace (n + 2) with (1 + (n + 1)) in R by lia. rewrite (Z.pow_add_r 2 1 (n + 1)) in R by lia. change (2 ^ 1) with 2 in R.
    split; [apply Z.div_pos; lia|]. apply Z.div_lt_upper_bound; lia. }
  destruct (Z.eq_dec i (n + 1)) as [->|Ne].
  - rewrite Z.testbit_odd, Z.shiftr_div_pow2 by lia. rewrite Z.mul_comm, Z.div_add by (apply Z.pow_nonzero; lia). rewrite Z.div_small by assumption.
    replace (Z.to_nat _) with q by lia. destruct (f q); reflexivity.
  - rewrite <- (Z.mod_pow2_bits_low _ (n + 1)) by lia. rewrite Z.mul_comm, Z.mod_add by (apply Z.pow_nonzero; lia).
    rewrite Z.mod_pow2_bits_low by lia. change 2 with (2 ^ 1) at 1. rewrite <- Z.shiftr_div_pow2 by lia. rewrite Z.shiftr_spec by lia.
    rewrite IH by lia. f_equal. lia.
Qed.

Section Receiving.
Variables (s0 : rxst) (line ack : nat -> bool).
Let st := rx_run D n s0 line ack.
Variable t : nat.
Hypothesis (Hidle : rx_count (st t) = 0) (Hlow : line t = false) (Hfree : rx_rdy (st t) = false \/ ack t = true).
Hypothesis (Hsh : 0 <= rx_shreg (st t) < 2 ^ (n + 2)).
Let h := Z.to_nat (D / 2).
(** The cycle in which bit [k] is sampled. *)
Definition sample_at (k : nat) : nat := (t + 1 + h + k * Z.to_nat D)%nat.
Let bit (k : nat) : bool := line (sample_at k).

Lemma D2 : 0 <= D / 2. Proof. apply Z.div_pos; lia. Qed.

Lemma start_phase j : (j <= h)%nat ->
  let x := st (t + 1 + j) in
  rx_count x = n + 2 /\ rx_phase x = Z.of_nat (h - j) /\ rx_shreg x = rx_shreg (st t) /\ rx_rdy x = false /\ rx_ovf x = false.
Proof.
  pose proof D2. induction j as [|j IH]; intros Hj; cbv zeta.
  - replace (t + 1 + 0)%nat with (S t) by lia. unfold st. cbn [rx_run]. fold st. unfold rx_step. rewrite Hidle. cbn [Z.eqb].
    cbv zeta. cbn [rx_count rx_phase rx_shreg rx_rdy rx_ovf]. rewrite Hlow. cbn [negb andb].
    assert (E : ack t || negb (rx_rdy (st t)) = true) by (destruct Hfree as [-> | ->]; [destruct (ack t)|]; reflexivity).
    rewrite E. cbn [negb]. repeat split; [unfold h; lia|destruct (ack t); reflexivity].
  - replace (t + 1 + S j)%nat with (S (t + 1 + j)) by lia. unfold st. cbn [rx_run]. fold st.
    destruct IH as (I1 & I2 & I3 & I4 & I5); [lia|]. unfold rx_step. rewrite I1, I2.
    destruct (Z.eqb_spec (n + 2) 0); [lia|]. destruct (Z.eqb_spec (Z.of_nat (h - j)) 0); [lia|]. cbn [negb rx_count rx_phase rx_shreg rx_rdy rx_ovf].
    repeat split; [lia|assumption|assumption|assumption].
Qed.

(** [m] cycles after the first sample. *)
Lemma bit_phase m : Z.of_nat m < (n + 1) * D + 1 ->
  let x := st (t + 1 + h + 1 + m) in let z := Z.of_nat m in
  rx_count x = n + 1 - z / D /\ rx_phase x = D - 1 - z mod D /\ rx_shreg x = shifts (rx_shreg (st t)) bit (S (Z.to_nat (z / D))) /\
  rx_rdy x = (z =? (n + 1) * D) /\ rx_ovf x = false.
Proof.
  pose proof D2. induction m as [|m IH]; intros Hm; cbv zeta.
  - replace (t + 1 + h + 1 + 0)%nat with (S (t + 1 + h)) by lia. unfold st. cbn [rx_run]. fold st.
    destruct (start_phase h (le_n h)) as (I1 & I2 & I3 & I4 & I5). unfold rx_step. rewrite I1, I2, I3, I4, I5.
    cbn [Z.of_nat]. rewrite Z.div_0_l, Z.mod_0_l by lia.
    assert (Ez : (0 =? (n + 1) * D) = false) by (apply Z.eqb_neq; nia). rewrite Ez. rewrite Nat.sub_diag. destruct (Z.eqb_spec (n + 2) 0); [lia|]. cbn [Z.of_nat Z.eqb negb rx_count rx_phase rx_shreg rx_rdy rx_ovf Z.to_nat shifts].
    repeat split; try lia.
    + unfold bit, sample_at. f_equal. f_equal. f_equal. f_equal. lia.
    + destruct (Z.eqb_spec (n + 2) 1); [lia|]. reflexivity.
  - replace (t + 1 + h + 1 + S m)%nat with (S (t + 1 + h + 1 + m)) by lia. unfold st. cbn [rx_run]. fold st.
    destruct IH as (I1 & I2 & I3 & I4 & I5); [lia|]. rewrite Nat2Z.inj_succ in *. set (z := Z.of_nat m) in *.
    assert (Hz : 0 <= z / D < n + 1). { split; [apply Z.div_pos; lia|]. apply Z.div_lt_upper_bound; lia. }
    pose proof (Z.mod_pos_bound z D ltac:(lia)) as Hmm. pose proof (Z.div_mod z D ltac:(lia)) as E.
    unfold rx_step. rewrite I1, I2, I3, I4, I5. destruct (Z.eqb_spec (n + 1 - z / D) 0); [lia|].
    destruct (Z.eqb_spec z ((n + 1) * D)); [lia|].
    destruct (Z.eqb_spec (D - 1 - z mod D) 0) as [Ep|Ep]; cbn [negb rx_count rx_phase rx_shreg rx_rdy rx_ovf].
    + assert (Es : Z.succ z = (z / D + 1) * D) by lia.
      rewrite Es, Z.div_mul, Z.mod_mul by lia. replace (Z.to_nat (z / D + 1)) with (S (Z.to_nat (z / D))) by lia.
      repeat split; [lia|lia| |].
      * cbn [shifts]. f_equal. f_equal. f_equal. unfold bit, sample_at. f_equal.
        assert (Z.of_nat m = z / D * D + (D - 1)) by (fold z; lia).
        assert (Z.of_nat (S (Z.to_nat (z / D)) * Z.to_nat D) = (z / D + 1) * D) by (rewrite Nat2Z.inj_mul, Nat2Z.inj_succ, !Z2Nat.id by lia; lia). lia.
      * destruct (Z.eqb_spec (n + 1 - z / D) 1) as [E1|E1]; symmetry; [apply Z.eqb_eq|apply Z.eqb_neq]; nia.
    + assert (Es : Z.succ z = (z mod D + 1) + (z / D) * D) by lia.
      rewrite Es, Z.div_add, Z.mod_add by lia. rewrite (Z.div_small (z mod D + 1)), (Z.mod_small (z mod D + 1)) by lia.
      rewrite Z.add_0_l. repeat split; [lia|]. symmetry. apply Z.eqb_neq. nia.
Qed.

(** What has been received when the last bit has been sampled. *)
Lemma received : let y := (sample_at (Z.to_nat (n + 1)) + 1)%nat in
  rx_count (st y) = 0 /\ rx_rdy (st y) = true /\ rx_ovf (st y) = false /\
  (forall i, 0 <= i < n + 2 -> Z.testbit (rx_shreg (st y)) i = bit (Z.to_nat i)) /\ 0 <= rx_shreg (st y) < 2 ^ (n + 2).
Proof.
  cbv zeta. destruct (bit_phase (Z.to_nat ((n + 1) * D))) as (I1 & I2 & I3 & I4 & I5); [nia|].
  rewrite Z2Nat.id, Z.div_mul in * by nia. rewrite Z.eqb_refl in I4.
  replace (t + 1 + h + 1 + Z.to_nat ((n + 1) * D))%nat with (sample_at (Z.to_nat (n + 1)) + 1)%nat in *
    by (unfold sample_at; rewrite Z2Nat.inj_mul by lia; lia).
  repeat split; try assumption; [lia| | |]; rewrite I3.
  - intros i Hi. rewrite shifts_bit by (try assumption; lia). f_equal. lia.
  - apply shifts_range; assumption.
  - apply shifts_range; assumption.
Qed.
(** Until then it is not ready. *)
Lemma not_ready y : (t + 1 <= y <= sample_at (Z.to_nat (n + 1)))%nat -> rx_count (st y) <> 0 /\ rx_rdy (st y) = false /\ rx_ovf (st y) = false.
Proof.
  intros Hy. assert (Es : Z.of_nat (sample_at (Z.to_nat (n + 1))) = Z.of_nat (t + 1 + h) + (n + 1) * D).
  { unfold sample_at. rewrite Nat2Z.inj_add, Nat2Z.inj_mul, !Z2Nat.id by lia. lia. }
  destruct (Nat.le_gt_cases y (t + 1 + h)) as [L|L].
  - destruct (start_phase (y - (t + 1))) as (I1 & _ & _ & I4 & I5); [lia|]. replace (t + 1 + (y - (t + 1)))%nat with y in * by lia. repeat split; [lia|assumption|assumption].
  - destruct (bit_phase (y - (t + 1 + h + 1))) as (I1 & _ & _ & I4 & I5); [nia|]. replace (t + 1 + h + 1 + (y - (t + 1 + h + 1)))%nat with y in * by lia.
    set (z := Z.of_nat (y - (t + 1 + h + 1))) in *. assert (Hz : 0 <= z / D < n + 1). { split; [apply Z.div_pos; lia|]. apply Z.div_lt_upper_bound; lia. }
    repeat split; [lia| |assumption]. rewrite I4. apply Z.eqb_neq. lia.
Qed.
End Receiving.
End Rx.

(** Not in the middle of a character. *)
Definition rx_idle (s : rxst) : bool := rx_count s =? 0.

Lemma rx_sh_init n : 0 <= n -> 0 <= rx_shreg (rx_init n) < 2 ^ (n + 2).
Proof. intros Hn. cbn [rx_shreg rx_init]. pose proof (Z.pow_pos_nonneg 2 (n + 2) ltac:(lia) ltac:(lia)). lia. Qed.
Lemma rx_sh_step D n s i a : 0 <= n -> 0 <= rx_shreg s < 2 ^ (n + 2) -> 0 <= rx_shreg (rx_step D n s i a) < 2 ^ (n + 2).
Proof.
  intros Hn Hs. unfold rx_step. destruct (_ =? _); [exact Hs|]. destruct (negb _); [exact Hs|]. cbn [rx_shreg].
  apply (shifts_range n Hn (rx_shreg s) (fun _ => i) 1 Hs).
Qed.
Lemma rx_sh_run D n s line ack t : 0 <= n -> 0 <= rx_shreg s < 2 ^ (n + 2) -> 0 <= rx_shreg (rx_run D n s line ack t) < 2 ^ (n + 2).
Proof. intros Hn Hs. induction t as [|t IH]; [assumption|]. cbn [rx_run]. apply rx_sh_step; assumption. Qed.

Lemma bits1 x i : 0 <= i -> bitb x i = Z.testbit x i.
Proof.
  intros Hi. unfold bitb, bits. rewrite Z.testbit_odd, Z.shiftr_div_pow2 by assumption. change (2 ^ 1) with 2. rewrite Zmod_odd.
  destruct (Z.odd _); reflexivity.
Qed.
Lemma rx_data_bit n s i : 0 <= i < n -> Z.testbit (rx_data n s) i = Z.testbit (rx_shreg s) (i + 1).
Proof.
  intros Hi. unfold rx_data, bits. rewrite Z.mod_pow2_bits_low by lia. rewrite <- Z.shiftr_div_pow2 by lia. rewrite Z.shiftr_spec by lia. reflexivity.
Qed.
Lemma rx_data_range n s : 0 <= n -> 0 <= rx_data n s < 2 ^ n.
Proof. intros Hn. apply Z.mod_pos_bound. apply Z.pow_pos_nonneg; lia. Qed.

(** C37: a character whose start bit is seen in cycle [t] is sampled every [D] cycles starting
    half a bit later; after the last sample, and not before, the receiver reports it ready with
    exactly those data bits, and flags an error exactly when the start or stop sample is wrong. *)
Theorem C37_receive : forall D n line ack, 1 <= D -> 0 <= n ->
  let st := rx_run D n (rx_init n) line ack in
  forall t, rx_idle (st t) = true -> line t = false -> (rx_rdy (st t) = false \/ ack t = true) ->
  let sample (k : Z) := (t + 1 + Z.to_nat (D / 2) + Z.to_nat k * Z.to_nat D)%nat in
  let done := (sample (n + 1)%Z + 1)%nat in
  (forall y, (t < y < done)%nat -> rx_rdy (st y) = false /\ rx_idle (st y) = false) /\
  rx_rdy (st done) = true /\ rx_idle (st done) = true /\ rx_ovf (st done) = false /\
  0 <= rx_data n (st done) < 2 ^ n /\
  (forall i, 0 <= i < n -> Z.testbit (rx_data n (st done)) i = line (sample (i + 1))) /\
  rx_err n (st done) = negb (negb (line (sample 0)) && line (sample (n + 1))).
Proof.
  intros D n line ack HD Hn st t Hi Hl Hf sample done. unfold rx_idle in *. apply Z.eqb_eq in Hi.
  assert (Hs : 0 <= rx_shreg (st t) < 2 ^ (n + 2)) by (apply rx_sh_run; [assumption|apply rx_sh_init; assumption]).
  destruct (received D n HD Hn (rx_init n) line ack t Hi Hl Hf Hs) as (R1 & R2 & R3 & R4 & R5).
  fold st in R1, R2, R3, R4, R5. change (sample_at D t (Z.to_nat (n + 1)) + 1)%nat with done in *.
  split; [|split; [assumption|split; [apply Z.eqb_eq; assumption|split; [assumption|split; [apply rx_data_range; assumption|split]]]]].
  - intros y Hy. destruct (not_ready D n HD Hn (rx_init n) line ack t Hi Hl Hf y) as (N1 & N2 & _).
    + unfold done, sample, sample_at in *. lia.
    + split; [assumption|]. apply Z.eqb_neq. assumption.
  - intros i Hi'. rewrite rx_data_bit by lia. rewrite R4 by lia. reflexivity.
  - unfold rx_err. rewrite R1. cbn [Z.eqb andb]. rewrite !bits1 by lia. rewrite !R4 by lia. reflexivity.
Qed.

(** C37, continued: a character that has not been taken yet is neither lost nor overwritten,
    whatever happens on the line (a new start bit only sets the overflow flag). *)
Theorem C37_unread_character_kept : forall D n line ack, 0 <= n ->
  let st := rx_run D n (rx_init n) line ack in
  forall t, rx_rdy (st t) = true -> ack t = false ->
  rx_idle (st t) = true /\ rx_rdy (st (S t)) = true /\ rx_data n (st (S t)) = rx_data n (st t) /\ rx_err n (st (S t)) = rx_err n (st t) /\
  rx_ovf (st (S t)) = (negb (line t) || rx_ovf (st t))%bool.
Proof.
  intros D n line ack Hn st.
  assert (Inv : forall t, 0 <= rx_count (st t) /\ (rx_rdy (st t) = true -> rx_count (st t) = 0)).
  { induction t as [|t [I1 I2]]; [split; [reflexivity|discriminate]|]. unfold st. cbn [rx_run]. fold st. unfold rx_step.
    destruct (Z.eqb_spec (rx_count (st t)) 0) as [E|E].
    - cbn [rx_count rx_rdy]. destruct (negb (line t) && (ack t || negb (rx_rdy (st t))))%bool eqn:B.
      + split; [lia|]. destruct (ack t); discriminate.
      + split; [lia|]. intros _. assumption.
    - destruct (negb _); cbn [rx_count rx_rdy]; [split; [assumption|intros R; exfalso; tauto]|]. split; [lia|].
      destruct (Z.eqb_spec (rx_count (st t)) 1); [lia|]. intros R. exfalso; tauto. }
  intros t R A. destruct (Inv t) as [_ I]. specialize (I R). unfold rx_idle. rewrite I. split; [reflexivity|].
  unfold st. cbn [rx_run]. fold st. unfold rx_step, rx_err, rx_data. rewrite I, A, R. cbn [Z.eqb orb negb rx_rdy rx_shreg rx_ovf rx_count].
  rewrite andb_false_r. cbn [negb]. repeat split; destruct (line t); reflexivity.
Qed.

(** ** A transmitter feeding a receiver *)
Lemma frame_sample n d P D k : 0 <= n -> 1 <= P -> 0 <= D -> 0 <= k <= n + 1 ->
  1 + D / 2 < P -> (n + 1) * P <= 1 + D / 2 + (n + 1) * D < (n + 2) * P ->
  frame_bit n d ((1 + D / 2 + k * D) / P) = frame_bit n d k.
Proof.
  intros Hn HP HD Hk H0 [HN1 HN2]. f_equal. assert (0 <= D / 2) by (apply Z.div_pos; lia).
  assert (0 <= n + 1) by lia. set (h := D / 2) in *.
  assert (k * P <= 1 + h + k * D).
  { destruct (Z.le_gt_cases P D) as [L|L]; [nia|]. assert (k * (P - D) <= (n + 1) * (P - D)) by (apply Z.mul_le_mono_nonneg_r; lia). lia. }
  assert (1 + h + k * D < (k + 1) * P).
  { destruct (Z.le_gt_cases D P) as [L|L]; [nia|]. assert (k * (D - P) <= (n + 1) * (D - P)) by (apply Z.mul_le_mono_nonneg_r; lia). lia. }
  symmetry. apply (Z.div_unique _ _ _ (1 + h + k * D - k * P)); [left; lia|lia].
Qed.

(** C38: every byte sent with bit time [P] is received unchanged and without error by a receiver
    of divisor [D] that is idle and free when the start bit arrives, as long as the accumulated
    difference of the two rates stays within half a bit over the frame. *)
Theorem C38_loopback : forall P D n rdy data ack, 1 <= P -> 1 <= D -> 0 <= n -> (forall u, 0 <= data u < 2 ^ n) ->
  1 + D / 2 < P -> (n + 1) * P <= 1 + D / 2 + (n + 1) * D < (n + 2) * P ->
  let tx := tx_run P n (tx_init n) rdy data in
  let line u := tx_o (tx u) in
  let rx := rx_run D n (rx_init n) line ack in
  forall t, tx_ack (tx t) = true -> rdy t = true ->
  rx_idle (rx (S t)) = true -> (rx_rdy (rx (S t)) = false \/ ack (S t) = true) ->
  let done := (t + 3 + Z.to_nat (D / 2 + (n + 1) * D))%nat in
  rx_rdy (rx done) = true /\ rx_data n (rx done) = data t /\ rx_err n (rx done) = false /\ rx_ovf (rx done) = false.
Proof.
  intros P D n rdy data ack HP HD Hn Hd S0 SN tx line rx t A R I F done.
  assert (HD2 : 0 <= D / 2) by (apply Z.div_pos; lia).
  destruct (C36_transmit_framing P n rdy data HP Hn Hd) as (_ & _ & X). destruct (X t A R) as [X1 _]. clear X.
  fold tx in X1.
  assert (L : forall k, 0 <= k <= n + 1 -> line (S t + 1 + Z.to_nat (D / 2) + Z.to_nat k * Z.to_nat D)%nat = frame_bit n (data t) k).
  { intros k Hk. unfold line. set (j := Z.to_nat (1 + D / 2 + k * D)).
    replace (S t + 1 + Z.to_nat (D / 2) + Z.to_nat k * Z.to_nat D)%nat with (t + 1 + j)%nat.
    2:{ unfold j. rewrite Z2Nat.inj_add, Z2Nat.inj_add, Z2Nat.inj_mul by nia. lia. }
    assert (Ej : Z.of_nat j = 1 + D / 2 + k * D) by (unfold j; nia).
    assert (k * D <= (n + 1) * D) by (apply Z.mul_le_mono_nonneg_r; lia).
    destruct (X1 j) as [-> _]; [lia|]. rewrite Ej. apply frame_sample; lia. }
  assert (Low : line (S t) = false).
  { unfold line. replace (S t) with (t + 1 + 0)%nat by lia. destruct (X1 0%nat) as [-> _]; [nia|]. cbn [Z.of_nat]. rewrite Z.div_0_l by lia. reflexivity. }
  destruct (C37_receive D n line ack HD Hn (S t) I Low F) as (_ & R1 & _ & R3 & R4 & R5 & R6). fold rx in R1, R3, R4, R5, R6.
  replace (S t + 1 + Z.to_nat (D / 2) + Z.to_nat (n + 1) * Z.to_nat D + 1)%nat with done in *.
  2:{ unfold done. rewrite Z2Nat.inj_add, Z2Nat.inj_mul by nia. lia. }
  split; [assumption|]. split; [|split; [|assumption]].
  - apply Z.bits_inj'. intros i Hi. destruct (Z.lt_ge_cases i n) as [Li|Li].
    + rewrite R5, L by lia. unfold frame_bit. destruct (Z.eqb_spec (i + 1) 0); [lia|]. destruct (Z.leb_spec (i + 1) n); [f_equal; lia|lia].
    + rewrite <- (Z.mod_small _ _ R4), <- (Z.mod_small _ _ (Hd t)), !Z.mod_pow2_bits_high by lia. reflexivity.
  - rewrite R6. replace (line _) with (frame_bit n (data t) 0) by (symmetry; rewrite <- L by lia; f_equal).
    rewrite (L (n + 1)) by lia. unfold frame_bit. destruct (Z.eqb_spec (n + 1) 0); [lia|]. destruct (Z.leb_spec (n + 1) n); [lia|]. reflexivity.
Qed.
(** With equal divisors of at least 3 (the class insists on 4) the rate condition always holds. *)
Lemma same_rate_ok D n : 3 <= D -> 0 <= n -> 1 + D / 2 < D /\ (n + 1) * D <= 1 + D / 2 + (n + 1) * D < (n + 2) * D.
Proof.
  intros HD Hn. pose proof (Z.div_mod D 2 ltac:(lia)). pose proof (Z.mod_pos_bound D 2 ltac:(lia)).
  assert (1 + D / 2 < D). { assert (D = 3 \/ 4 <= D) as [->|] by lia; [reflexivity|lia]. } lia.
Qed.

(** ** A stream of characters *)
From Coq Require Import List.
Import ListNotations.
Section Stream.
Variables (D n : Z) (rdy : nat -> bool) (data : nat -> Z) (ack : nat -> bool).
Definition l_tx (t : nat) : txst := tx_run D n (tx_init n) rdy data t.
Definition l_line (t : nat) : bool := tx_o (l_tx t).
Definition l_rx (t : nat) : rxst := rx_run D n (rx_init n) l_line ack t.
(** Bytes accepted by the transmitter before cycle [t], and bytes taken from the receiver. *)
Fixpoint l_sent (t : nat) : list Z :=
  match t with O => [] | S k => if tx_ack (l_tx k) && rdy k then l_sent k ++ [data k] else l_sent k end.
Fixpoint l_recv (t : nat) : list Z :=
  match t with O => [] | S k => if rx_rdy (l_rx k) && ack k then l_recv k ++ [rx_data n (l_rx k)] else l_recv k end.
(** The consumer takes a character within [D - D/2] cycles (half a bit time) of its being ready. *)
Definition prompt : Prop := forall u, rx_rdy (l_rx u) = false -> rx_rdy (l_rx (S u)) = true ->
  exists v, (S u <= v < S u + Z.to_nat (D - D / 2))%nat /\ ack v = true.

Hypothesis (HD : 3 <= D) (Hn : 0 <= n) (Hd : forall u, 0 <= data u < 2 ^ n) (Hp : prompt).

Definition ovf_free (t : nat) : Prop := rx_ovf (l_rx t) = false.
(** Between characters. *)
Definition epoch (t : nat) : Prop :=
  tx_ack (l_tx t) = true /\ rx_idle (l_rx t) = true /\ ovf_free t /\
  ((rx_rdy (l_rx t) = false /\ l_recv t = l_sent t) \/
   (rx_rdy (l_rx t) = true /\ l_recv t ++ [rx_data n (l_rx t)] = l_sent t /\ (ack t = true \/ ack (S t) = true))).

Lemma rx_quiet t : rx_idle (l_rx t) = true -> l_line t = true ->
  rx_idle (l_rx (S t)) = true /\ (ovf_free t -> ovf_free (S t)) /\ rx_data n (l_rx (S t)) = rx_data n (l_rx t) /\
  rx_rdy (l_rx (S t)) = (if ack t then false else rx_rdy (l_rx t)).
Proof.
  unfold rx_idle, ovf_free, rx_data. intros I L. unfold l_rx. cbn [rx_run]. fold (l_rx t). unfold rx_step. rewrite I, L. cbn [negb andb rx_count rx_ovf rx_shreg rx_rdy].
  repeat split; [assumption|tauto].
Qed.
Lemma recv_S t : l_recv (S t) = if rx_rdy (l_rx t) && ack t then l_recv t ++ [rx_data n (l_rx t)] else l_recv t.
Proof. reflexivity. Qed.
Lemma sent_S t : l_sent (S t) = if tx_ack (l_tx t) && rdy t then l_sent t ++ [data t] else l_sent t.
Proof. reflexivity. Qed.
Lemma HD1 : 1 <= D. Proof. lia. Qed.
Lemma frames : let st := l_tx in
  (forall t, tx_ack (st t) = true -> tx_o (st t) = true) /\
  (forall t, tx_ack (st t) = true -> rdy t = false -> tx_ack (st (S t)) = true) /\
  forall t, tx_ack (st t) = true -> rdy t = true ->
    (forall j, Z.of_nat j < (n + 2) * D ->
      tx_o (st (t + 1 + j)%nat) = frame_bit n (data t) (Z.of_nat j / D) /\ tx_ack (st (t + 1 + j)%nat) = false) /\
    tx_ack (st (t + 1 + Z.to_nat ((n + 2) * D))%nat) = true.
Proof. exact (C36_transmit_framing D n rdy data HD1 Hn Hd). Qed.

Lemma epoch_0 : epoch 0.
Proof. repeat split; try reflexivity. left. split; reflexivity. Qed.

(** A pending character is taken now or in the next cycle. *)
Lemma epoch_pending t : epoch t -> l_line t = true ->
  rx_idle (l_rx (S t)) = true /\ ovf_free (S t) /\
  ((rx_rdy (l_rx (S t)) = false /\ l_recv (S t) = l_sent t) \/
   (rx_rdy (l_rx (S t)) = true /\ l_recv (S t) ++ [rx_data n (l_rx (S t))] = l_sent t /\ ack (S t) = true)).
Proof.
  intros (A & I & O & P) L. destruct (rx_quiet t I L) as (Q1 & Q2 & Q3 & Q4). split; [assumption|]. split; [apply Q2; assumption|].
  rewrite Q3, Q4, recv_S. destruct P as [[P1 P2]|(P1 & P2 & P3)]; rewrite P1.
  - left. split; [destruct (ack t); reflexivity|]. cbn [andb]. assumption.
  - destruct (ack t) eqn:Ak; cbn [andb].
    + left. split; [reflexivity|assumption].
    + right. split; [reflexivity|]. split; [assumption|]. destruct P3; [congruence|assumption].
Qed.
Lemma epoch_idle t : epoch t -> rdy t = false -> epoch (S t).
Proof.
  intros E R. destruct frames as (F1 & F2 & _). pose proof E as (A & _).
  destruct (epoch_pending t E (F1 t A)) as (P1 & P2 & P3). split; [apply F2; assumption|]. split; [assumption|]. split; [assumption|].
  rewrite sent_S, R, andb_false_r. destruct P3 as [[P3 P4]|(P3 & P4 & P5)]; [left|right]; tauto.
Qed.

Section Char.
Variable t : nat.
Hypothesis (E : epoch t) (R : rdy t = true).
Let done := (t + 3 + Z.to_nat (D / 2 + (n + 1) * D))%nat.
Let e := (t + 1 + Z.to_nat ((n + 2) * D))%nat.

Lemma D2s : 1 + D / 2 < D. Proof. destruct (same_rate_ok D n HD Hn) as [? _]. assumption. Qed.
Lemma D2p : 0 <= D / 2. Proof. apply Z.div_pos; lia. Qed.
Lemma done_e : (done <= e)%nat.
Proof. unfold done, e. pose proof D2s. pose proof D2p. assert (3 + (D / 2 + (n + 1) * D) <= 1 + (n + 2) * D) by lia. nia. Qed.

Lemma char_line j : Z.of_nat j < (n + 2) * D -> l_line (t + 1 + j) = frame_bit n (data t) (Z.of_nat j / D) /\ tx_ack (l_tx (t + 1 + j)) = false.
Proof. destruct frames as (_ & _ & F). destruct (F t) as [F1 _]; [apply E|assumption|]. apply F1. Qed.
Lemma char_busy y : (t < y < e)%nat -> tx_ack (l_tx y) = false.
Proof. intros Hy. destruct (char_line (y - (t + 1))) as [_ K]; [unfold e in Hy; nia|]. replace (t + 1 + (y - (t + 1)))%nat with y in K by lia. assumption. Qed.
Lemma char_stop y : (done <= y < e)%nat -> l_line y = true.
Proof.
  intros Hy. pose proof D2p. destruct (char_line (y - (t + 1))) as [K _]; [unfold e in Hy; nia|]. replace (t + 1 + (y - (t + 1)))%nat with y in K by lia. rewrite K.
  assert (H1 : (n + 1) * D <= Z.of_nat (y - (t + 1)) < (n + 2) * D) by (unfold done, e in Hy; nia).
  assert (Z.of_nat (y - (t + 1)) / D = n + 1) as ->.
  { symmetry. apply (Z.div_unique _ _ _ (Z.of_nat (y - (t + 1)) - (n + 1) * D)); [left; lia|lia]. }
  unfold frame_bit. destruct (Z.eqb_spec (n + 1) 0); [lia|]. destruct (Z.leb_spec (n + 1) n); [lia|reflexivity].
Qed.
Lemma char_sent y : (t < y <= e)%nat -> l_sent y = l_sent t ++ [data t].
Proof.
  induction y as [|y IH]; intros Hy; [lia|]. rewrite sent_S. destruct (Nat.eq_dec y t) as [->|Ne].
  - destruct E as (A & _). rewrite A, R. reflexivity.
  - rewrite char_busy by lia. cbn [andb]. apply IH. lia.
Qed.

(** Start-bit cycle. *)
Lemma char_start : rx_idle (l_rx (S t)) = true /\ ovf_free (S t) /\ (rx_rdy (l_rx (S t)) = false \/ ack (S t) = true) /\ l_line (S t) = false /\
  l_recv (S (S t)) = l_sent t /\ exists rest, l_recv (S t) ++ rest = l_sent t /\ (length rest <= 1)%nat.
Proof.
  destruct frames as (F1 & _ & _). pose proof E as (A & _). destruct (epoch_pending t E (F1 t A)) as (P1 & P2 & P3).
  split; [assumption|]. split; [assumption|]. split; [destruct P3 as [[? _]|(_ & _ & ?)]; [left|right]; assumption|].
  split. { replace (S t) with (t + 1 + 0)%nat by lia. destruct (char_line 0) as [-> _]; [nia|]. cbn [Z.of_nat]. rewrite Z.div_0_l by lia. reflexivity. }
  rewrite recv_S. destruct P3 as [[P3 P4]|(P3 & P4 & P5)]; rewrite P3.
  - cbn [andb]. split; [assumption|]. exists []. rewrite app_nil_r. split; [assumption|cbn; lia].
  - rewrite P5. cbn [andb]. split; [assumption|]. eexists. split; [eassumption|cbn; lia].
Qed.
Lemma char_sh : 0 <= rx_shreg (l_rx (S t)) < 2 ^ (n + 2).
Proof. apply rx_sh_run; [assumption|apply rx_sh_init; assumption]. Qed.
Lemma char_recv y : (S (S t) <= y < done)%nat -> rx_rdy (l_rx y) = false /\ ovf_free y.
Proof.
  intros Hy. destruct char_start as (S1 & _ & S2 & S3 & _). unfold rx_idle in S1. apply Z.eqb_eq in S1.
  destruct (not_ready D n HD1 Hn (rx_init n) l_line ack (S t) S1 S3 S2 y) as (_ & N1 & N2).
  { pose proof D2p. unfold done, sample_at in *. rewrite Z2Nat.inj_add, Z2Nat.inj_mul in Hy by nia. lia. }
  split; assumption.
Qed.
Lemma char_recv_log y : (S (S t) <= y <= done)%nat -> l_recv y = l_sent t.
Proof.
  induction y as [|y IH]; intros Hy; [lia|]. rewrite recv_S. destruct (Nat.eq_dec y (S t)) as [->|Ne].
  - destruct char_start as (_ & _ & _ & _ & K & _). rewrite <- recv_S. assumption.
  - destruct (char_recv y) as [-> _]; [lia|]. cbn [andb]. apply IH. lia.
Qed.
Lemma char_done : rx_rdy (l_rx done) = true /\ rx_data n (l_rx done) = data t /\ rx_idle (l_rx done) = true /\ ovf_free done /\ rx_err n (l_rx done) = false.
Proof.
  destruct char_start as (S1 & _ & S2 & S3 & _). destruct (same_rate_ok D n HD Hn) as [Ra Rb].
  destruct (C38_loopback D D n rdy data ack HD1 HD1 Hn Hd Ra Rb t) as (R1 & R2 & R3 & R4); try assumption; [apply E|].
  destruct (C37_receive D n l_line ack HD1 Hn (S t) S1 S3 S2) as (_ & _ & R5 & _).
  replace (S t + 1 + Z.to_nat (D / 2) + Z.to_nat (n + 1) * Z.to_nat D + 1)%nat with done in R5.
  2:{ pose proof D2p. unfold done. rewrite Z2Nat.inj_add, Z2Nat.inj_mul by nia. lia. }
  repeat split; assumption.
Qed.
Lemma char_deadline : exists v, (done <= v <= S e)%nat /\ ack v = true.
Proof.
  pose proof D2s. pose proof D2p. assert (Hdn : (S (S t) < done)%nat) by (unfold done; nia).
  destruct (Hp (done - 1)%nat) as (v & V1 & V2).
  - destruct (char_recv (done - 1)) as [K _]; [lia|assumption].
  - replace (S (done - 1)) with done by lia. apply char_done.
  - exists v. split; [|assumption]. replace (S (done - 1)) with done in V1 by lia. split; [lia|].
    unfold done, e in *. assert (3 + (D / 2 + (n + 1) * D) + (D - D / 2) <= 3 + (n + 2) * D) by lia. nia.
Qed.
(** Between completion and the end of the stop bit. *)
Lemma char_tail y : (done <= y <= e)%nat -> rx_idle (l_rx y) = true /\ ovf_free y /\
  ((rx_rdy (l_rx y) = false /\ l_recv y = l_sent t ++ [data t]) \/
   (rx_rdy (l_rx y) = true /\ rx_data n (l_rx y) = data t /\ l_recv y = l_sent t /\ exists v, (y <= v <= S e)%nat /\ ack v = true)).
Proof.
  induction y as [|y IH]; intros Hy; [unfold done in Hy; lia|]. destruct (Nat.eq_dec (S y) done) as [Eq|Ne].
  - rewrite Eq. destruct char_done as (C1 & C2 & C3 & C4 & _). split; [assumption|]. split; [assumption|]. right. repeat split; try assumption.
    + apply char_recv_log. split; [unfold done; lia|lia].
    + apply char_deadline.
  - destruct IH as (I1 & I2 & I3); [lia|]. destruct (rx_quiet y I1) as (Q1 & Q2 & Q3 & Q4); [apply char_stop; lia|].
    split; [assumption|]. split; [apply Q2; assumption|]. rewrite Q3, Q4, recv_S. destruct I3 as [[I3 I4]|(I3 & I4 & I5 & v & V1 & V2)]; rewrite I3.
    + left. cbn [andb]. split; [destruct (ack y); reflexivity|assumption].
    + destruct (ack y) eqn:Ak; cbn [andb].
      * left. split; [reflexivity|]. rewrite I4, I5. reflexivity.
      * right. repeat split; try assumption. exists v. split; [|assumption]. destruct (Nat.eq_dec v y) as [->|]; [congruence|lia].
Qed.
Lemma char_epoch : epoch e.
Proof.
  pose proof done_e. destruct frames as (_ & _ & F). destruct (F t) as [_ F2]; [apply E|assumption|].
  destruct (char_tail e) as (I1 & I2 & I3); [lia|]. split; [assumption|]. split; [assumption|]. split; [assumption|].
  rewrite (char_sent e) by (unfold e; lia). destruct I3 as [I3|(I3 & I4 & I5 & v & V1 & V2)]; [left; assumption|right].
  rewrite I4, I5. repeat split; [assumption|]. assert (v = e \/ v = S e) as [->| ->] by lia; [left|right]; assumption.
Qed.
Lemma char_prefix y : (t < y < e)%nat -> ovf_free y /\ exists rest, l_recv y ++ rest = l_sent y /\ (length rest <= 2)%nat.
Proof.
  intros Hy. rewrite char_sent by lia. destruct (Nat.eq_dec y (S t)) as [->|N1].
  - destruct char_start as (_ & K1 & _ & _ & _ & rest & K2 & K3). split; [assumption|]. exists (rest ++ [data t]). rewrite app_assoc, K2. split; [reflexivity|]. rewrite app_length. cbn. lia.
  - destruct (Nat.lt_ge_cases y done) as [L|L].
    + split; [apply char_recv; lia|]. rewrite char_recv_log by lia. exists [data t]. split; [reflexivity|cbn; lia].
    + destruct (char_tail y) as (_ & I2 & I3); [lia|]. split; [assumption|]. destruct I3 as [[I3 ->]|(I3 & I4 & -> & _)].
      * exists []. rewrite app_nil_r. split; [reflexivity|cbn; lia].
      * exists [data t]. split; [reflexivity|cbn; lia].
Qed.
End Char.

Lemma covered t : exists u, (u <= t)%nat /\ epoch u /\ (u = t \/ (rdy u = true /\ (t < u + 1 + Z.to_nat ((n + 2) * D))%nat)).
Proof.
  induction t as [|t (u & U1 & U2 & U3)]; [exists 0%nat; split; [lia|split; [apply epoch_0|left; reflexivity]]|].
  destruct U3 as [->|[U3 U4]].
  - destruct (rdy t) eqn:R.
    + exists t. split; [lia|]. split; [assumption|]. right. split; [assumption|]. nia.
    + exists (S t). split; [lia|]. split; [apply epoch_idle; assumption|left; reflexivity].
  - destruct (Nat.eq_dec (S t) (u + 1 + Z.to_nat ((n + 2) * D))) as [Eq|Ne].
    + exists (S t). split; [lia|]. split; [rewrite Eq; apply char_epoch; assumption|left; reflexivity].
    + exists u. split; [lia|]. split; [assumption|]. right. split; [assumption|lia].
Qed.
End Stream.

(** C38 for whole histories: with a prompt consumer the bytes taken from the receiver are, at
    every moment, a prefix of the bytes accepted by the transmitter (nothing lost, duplicated,
    corrupted or reordered), at most two behind, and all of them once both ends are idle; the
    overflow flag is never raised. *)
Theorem C38_stream : forall D n rdy data ack, 3 <= D -> 0 <= n -> (forall u, 0 <= data u < 2 ^ n) ->
  prompt D n rdy data ack ->
  forall t,
  rx_ovf (l_rx D n rdy data ack t) = false /\
  (exists rest, l_sent D n rdy data t = l_recv D n rdy data ack t ++ rest /\ (length rest <= 2)%nat) /\
  (tx_ack (l_tx D n rdy data t) = true -> rx_rdy (l_rx D n rdy data ack t) = false ->
   l_recv D n rdy data ack t = l_sent D n rdy data t).
Proof.
  intros D n rdy data ack HD Hn Hd Hp t. destruct (covered D n rdy data ack HD Hn Hd Hp t) as (u & U1 & U2 & U3).
  destruct U3 as [->|[U3 U4]].
  - destruct U2 as (A & I & O & P). split; [assumption|]. destruct P as [[P1 P2]|(P1 & P2 & P3)].
    + split; [exists []; rewrite app_nil_r; split; [symmetry; assumption|cbn; lia]|]. intros _ _. assumption.
    + split; [eexists; split; [symmetry; eassumption|cbn; lia]|]. congruence.
  - destruct (Nat.eq_dec u t) as [->|Ne].
    + destruct U2 as (A & I & O & P). split; [assumption|]. destruct P as [[P1 P2]|(P1 & P2 & P3)].
      * split; [exists []; rewrite app_nil_r; split; [symmetry; assumption|cbn; lia]|]. intros _ _. assumption.
      * split; [eexists; split; [symmetry; eassumption|cbn; lia]|]. congruence.
    + destruct (char_prefix D n rdy data ack HD Hn Hd Hp u U2 U3 t) as [C1 (rest & C2 & C3)]; [lia|]. split; [assumption|].
      split; [exists rest; split; [symmetry; assumption|assumption]|]. intros A. rewrite (char_busy D n rdy data ack HD Hn Hd u U2 U3 t) in A by lia. discriminate.
Qed.

(** *** Concrete cases *)
Definition ex_data (u : nat) : Z := 0x5A + Z.of_nat (u mod 2).
Definition ex_rdy (u : nat) : bool := true.
(** Divisor 4, a byte always waiting to be sent, a consumer that always accepts. *)
Lemma C36_applies : tx_ack (tx_run 4 8 (tx_init 8) ex_rdy ex_data 0) = true /\ ex_rdy 0 = true.
Proof. split; reflexivity. Qed.
Lemma C38_applies : prompt 4 8 ex_rdy ex_data (fun _ => true) /\
  l_recv 4 8 ex_rdy ex_data (fun _ => true) 130 = [0x5A; 0x5B; 0x5A].
Proof. split; [|vm_compute; reflexivity]. intros u _ _. exists (S u). split; [|reflexivity]. change (Z.to_nat (4 - 4 / 2)) with 2%nat. lia. Qed.
Lemma C37_unread_applies : let st := rx_run 4 8 (rx_init 8) (l_line 4 8 ex_rdy ex_data) (fun _ => false) in
  rx_rdy (st 60%nat) = true /\ rx_data 8 (st 60%nat) = 0x5A /\ rx_ovf (st 60%nat) = true.
Proof. vm_compute. repeat split. Qed.

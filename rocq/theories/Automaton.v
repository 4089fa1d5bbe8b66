(** * The example firmware's cellular automaton: C66 (sentinel-rt/examples/attosoc.rs:182-199, 201-366, 403-410)

    The main thread of the example firmware, at the level of its Rust source: the loop of [main], with
    [do_demo], [set_rule], [read_num], [write_line] and [write_char].  Its input is what it finds in
    the GPIO register and in RX (which the interrupt handler fills, C64); its output is the characters
    it passes to [write_char] (which reach the serial line in order, C63) and the writes to the LEDs. *)
From Coq Require Import Ascii String.
From Coq Require Import ZArith Lia Bool List.
From Verif Require Import Bits.
Import ListNotations.
Open Scope list_scope.
Open Scope Z_scope.

(** ** Model *)
(** A Unicode character passed to [write_char], or a write to the LED register. *)
Inductive out := Chr (c : Z) | Leds (v : Z).

(** attosoc.rs:246-255.  Characters are code points. *)
Definition BOX_DRAW_CHAR_MAP : list Z := [32; 0x2591; 0x2591; 0x2592; 0x2592; 0x2593; 0x2588; 0x2588].
(** attosoc.rs:246-255 *)
Definition DONUT_CHAR_MAP : list Z := [32; 46; 45; 58; 59; 33; 35; 64].
Definition BOX_DRAW_CHAR_BASIC : Z := 0x2588.
Definition DONUT_CHAR_BASIC : Z := 35.
Definition EMPTY_CHAR_BASIC : Z := 32.
Definition CHAR_MAPS : list (list Z) := [BOX_DRAW_CHAR_MAP; DONUT_CHAR_MAP].

Section Demo.
(** [BUFSIZ] and [INIT_POS] (attosoc.rs:25-26) are compile-time options. *)
Variables (BUFSIZ INIT_POS : nat).

(** [buffer.set(i, v)] (attosoc.rs:306). *)
Fixpoint set_nth (i : nat) (v : bool) (l : list bool) : list bool :=
  match l, i with [], _ => [] | _ :: r, O => v :: r | x :: r, S j => x :: set_nth j v r end.
(** The body of the loop over columns (attosoc.rs:282-310): [n] iterations from column [i], updating
    the buffer in place.  [cm] is [curr_char_map], [k] is [char_map_idx]. *)
Fixpoint columns (rule : Z) (cm : option (list Z)) (k : Z) (n i : nat) (prev_left prev_center : bool) (buffer : list bool) : list bool * list out :=
  match n with
  | O => (buffer, [])
  | S m =>
    let prev_right := nth (i + 1) buffer false in                                             (* 283 *)
    let idx := 4 * b2z prev_left + 2 * b2z prev_center + b2z prev_right in                     (* 284 *)
    let shade := match cm with                                                                 (* 288-301 *)
                 | None => if Z.testbit rule idx then if k mod 2 =? 0 then BOX_DRAW_CHAR_BASIC else DONUT_CHAR_BASIC else EMPTY_CHAR_BASIC
                 | Some m => nth (Z.to_nat idx) m 0
                 end in
    let (b, o) := columns rule cm k m (i + 1) prev_center prev_right (set_nth i (Z.testbit rule idx) buffer) in   (* 306-309 *)
    (b, Chr shade :: o)
  end.
(** What the main thread sees between the end of a line and the next one: the first sample of the
    input port (319), the pairs of samples taken in the waiting loop (322-328), and what the handler
    has stored in RX since RX was last looked at (oldest first). *)
Record pause := { first : Z; polls : list (Z * Z); stored : list Z }.
(** [debounce_chk_passed] after the loop: the port is only sampled while it is true. *)
Fixpoint debounce (chk : bool) (l : list (Z * Z)) : bool :=
  match l with
  | [] => chk
  | (a, b) :: r => debounce (if chk && (Z.land a (Z.land b 1) =? 0) then false else chk) r
  end.
(** RX after the handler has stored [l]. *)
Definition rx_after (rx : option Z) (l : list Z) : option Z := fold_left (fun _ c => Some c) l rx.
(** The outer loop (attosoc.rs:278-350), with the state it carries around; the pauses are consumed one
    by one.  The result: the output, and, when the function has returned, RX and the unused pauses. *)
Fixpoint demo_loop (rule : Z) (cm : option (list Z)) (k : Z) (buffer : list bool) (rx : option Z) (l : list pause) : list out * option (list pause) :=
  match l with
  | [] => ([], None)
  | p :: r =>
    let (buf, o) := columns rule cm k BUFSIZ 0 false (nth 0 buffer false) buffer in            (* 279-310 *)
    let chk := debounce (negb (Z.land (first p) 1 =? 0)) (polls p) in                          (* 319-328 *)
    let k' := if chk then (k + 1) mod 4 else k in                                              (* 330-333 *)
    let cm' := if chk then nth_error CHAR_MAPS (Z.to_nat k') else cm in
    match rx_after rx (stored p) with                                                          (* 335-349 *)
    | Some 3 => (o ++ [Chr 10], Some r)
    | _ => let (o', e) := demo_loop rule cm' k' buf None r in ((o ++ [Chr 10]) ++ o', e)
    end
  end.
(** attosoc.rs:240-351, with the first line (262-276). *)
Definition do_demo (rule : Z) (rx : option Z) (l : list pause) : list out * option (list pause) :=
  let buffer := set_nth INIT_POS true (repeat false BUFSIZ) in
  let top := map (fun b : bool => Chr (if b then BOX_DRAW_CHAR_BASIC else EMPTY_CHAR_BASIC)) buffer ++ [Chr 10] in
  let (o, e) := demo_loop rule (nth_error CHAR_MAPS 0) 0 buffer rx l in (top ++ o, e).
End Demo.

(** [u8::from_radix_10] of the atoi crate: the value of the leading decimal digits, and how many there
    are.  Not in /repo; taken from its documentation, with the wrapping arithmetic of release builds. *)
Fixpoint from_radix_10 (acc : Z) (n : nat) (l : list Z) : Z * nat :=
  match l with
  | c :: r => if (48 <=? c) && (c <=? 57) then from_radix_10 ((acc * 10 + (c - 48)) mod 256) (S n) r else (acc, n)
  | [] => (acc, n)
  end.
(** [read_num] (attosoc.rs:209-236): each entry of the list is what the handler has stored in RX since
    the last look.  Once [cnt] is 3 the unused entries are not looked at. *)
Fixpoint read_chars (cnt : nat) (buf : list Z) (rx : option Z) (l : list (list Z)) : list out * option (list Z) :=
  match cnt, l with
  | O, _ => ([], Some buf)
  | S n, [] => ([], None)
  | S n, x :: r =>
    match rx_after rx x with
    | Some b => let (o, e) := read_chars n (buf ++ [b]) None r in (Chr b :: o, e)
    | None => read_chars cnt buf None r
    end
  end.
(** [set_rule] (attosoc.rs:353-366).  The prompt is ["ctrl-c hit\nrule (default 110)? "]. *)
Definition prompt_text : list Z :=
  [99; 116; 114; 108; 45; 99; 32; 104; 105; 116; 10; 114; 117; 108; 101; 32; 40; 100; 101; 102; 97; 117; 108; 116; 32; 49; 49; 48; 41; 63; 32].
(** attosoc.rs:353-366 *)
Definition set_rule (rx : option Z) (l : list (list Z)) : list out * option Z :=
  let (o, e) := read_chars 3 [] rx l in
  match e with
  | None => (map Chr prompt_text ++ o, None)
  | Some buf => let (num, valid) := from_radix_10 0 0 buf in
                let rule := if Nat.ltb 0 valid then num else 110 in
                (map Chr prompt_text ++ o ++ [Leds rule; Chr 10], Some rule)
  end.
(** The main loop (attosoc.rs:403-410).  One entry per session: the pauses of the demo, and, after the
    Ctrl-C, what is stored between looks in [read_num].  A session that ends leaves RX empty (337,
    224), so the characters stored in a pause or between looks are counted from the last look. *)
Fixpoint program (BUFSIZ INIT_POS : nat) (rule : Z) (l : list (list pause * list (list Z))) : list out :=
  match l with
  | [] => []
  | (ps, ks) :: r =>
    let (o, e) := do_demo BUFSIZ INIT_POS rule None ps in
    match e with
    | None => o
    | Some _ => let (o', e') := set_rule None ks in
                match e' with None => o ++ o' | Some rule' => o ++ o' ++ program BUFSIZ INIT_POS rule' r end
    end
  end.

(** ** Specification *)
(** The cellular automaton: cell [x] of generation [n]; cells outside the line are dead. *)
Section Spec.
Variables (W : Z) (init : Z) (rule : Z).
Fixpoint cell (n : nat) (x : Z) : bool :=
  match n with
  | O => x =? init
  | S m => (0 <=? x) && (x <? W) && Z.testbit rule (4 * b2z (cell m (x - 1)) + 2 * b2z (cell m x) + b2z (cell m (x + 1)))
  end.
(** The three cells around [x], as a number. *)
Definition around (n : nat) (x : Z) : Z := 4 * b2z (cell n (x - 1)) + 2 * b2z (cell n x) + b2z (cell n (x + 1)).
(** The character for cell [x]: modes 0 and 1 shade generation [n] by neighbourhood, modes 2 and 3 show
    generation [n + 1] in black and white. *)
Definition glyph (mode : Z) (n : nat) (x : Z) : Z :=
  if mode =? 0 then nth (Z.to_nat (around n x)) [32; 0x2591; 0x2591; 0x2592; 0x2592; 0x2593; 0x2588; 0x2588] 0
  else if mode =? 1 then nth (Z.to_nat (around n x)) [32; 46; 45; 58; 59; 33; 35; 64] 0
  else if cell (S n) x then if mode =? 2 then 0x2588 else 35 else 32.
Definition xs : list Z := map Z.of_nat (seq 0 (Z.to_nat W)).
Definition line (mode : Z) (n : nat) : list out := map (fun x => Chr (glyph mode n x)) xs ++ [Chr 10].
Definition first_line : list out := map (fun x => Chr (if x =? init then 0x2588 else 32)) xs ++ [Chr 10].
End Spec.
(** The button is held during a pause: bit 0 is set in every sample taken. *)
Definition held (p : pause) : bool :=
  Z.testbit (first p) 0 && forallb (fun ab => Z.testbit (fst ab) 0 && Z.testbit (snd ab) 0) (polls p).
(** Ctrl-C is the last character to arrive in a pause. *)
Definition ctrl_c (p : pause) : bool := match rev (stored p) with 3 :: _ => true | _ => false end.
(** How often the button was held, modulo 4, before line [n]. *)
Definition mode (ps : list pause) (n : nat) : Z := Z.of_nat (length (filter held (firstn n ps))) mod 4.
(** Up to and including the first pause with a Ctrl-C. *)
Fixpoint until_ctrl_c (ps : list pause) : list pause :=
  match ps with [] => [] | p :: r => if ctrl_c p then [p] else p :: until_ctrl_c r end.
(** A run of the demo. *)
Definition show (W init rule : Z) (ps : list pause) : list out :=
  first_line W init ++ concat (map (fun n => line W init rule (mode ps n) n) (seq 0 (length (until_ctrl_c ps)))).
(** The characters taken from RX: the last one stored before each look that finds any. *)
Definition taken (l : list (list Z)) : list Z := flat_map (fun x => match rev x with c :: _ => [c] | [] => [] end) l.
Definition digit (c : Z) : bool := (48 <=? c) && (c <=? 57).
Fixpoint digits (l : list Z) : list Z := match l with c :: r => if digit c then (c - 48) :: digits r else [] | [] => [] end.
(** The number the answer begins with, or 110. *)
Definition answer (l : list Z) : Z := match digits l with [] => 110 | ds => fold_left (fun a d => 10 * a + d) ds 0 mod 256 end.
(** The prompt, on two lines. *)
Definition codes (t : String.string) : list Z := map (fun a => Z.of_nat (Ascii.nat_of_ascii a)) (String.list_ascii_of_string t).
Definition the_prompt : list Z := codes "ctrl-c hit"%string ++ [10] ++ codes "rule (default 110)? "%string.
(** The whole dialogue. *)
Fixpoint dialogue (W init rule : Z) (l : list (list pause * list (list Z))) : list out :=
  match l with
  | [] => []
  | (ps, ks) :: r =>
    show W init rule ps ++
    if existsb ctrl_c ps
    then map Chr the_prompt ++ map Chr (firstn 3 (taken ks)) ++
         if Nat.leb 3 (length (taken ks))
         then [Leds (answer (firstn 3 (taken ks))); Chr 10] ++ dialogue W init (answer (firstn 3 (taken ks))) r
         else []
    else []
  end.

(** ** Proofs *)
Lemma nth_set_nth l : forall i v j, nth j (set_nth i v l) false = if (Nat.eqb i j && Nat.ltb j (length l))%bool then v else nth j l false.
Proof.
  induction l as [|x l IH]; intros i v j; [destruct i, j; cbn; rewrite ?andb_false_r; reflexivity|].
  destruct i as [|i], j as [|j]; try reflexivity. cbn [set_nth nth]. rewrite IH. reflexivity.
Qed.
Lemma length_set_nth l : forall i v, length (set_nth i v l) = length l.
Proof. induction l as [|x l IH]; intros [|i] v; try reflexivity. cbn [set_nth length]. rewrite IH. reflexivity. Qed.

Section P.
Variables (N P : nat) (rule : Z).
Hypothesis HP : (P < N)%nat.
Local Notation W := (Z.of_nat N).
Local Notation init := (Z.of_nat P).
Local Notation cell := (cell W init rule).
Lemma cell_out n x : ~ (0 <= x < W) -> cell n x = false.
Proof.
  intros H. destruct n as [|n]; cbn [Automaton.cell].
  - apply Z.eqb_neq. lia.
  - destruct (0 <=? x) eqn:A; [|reflexivity]. destruct (x <? W) eqn:B; [|reflexivity]. apply Z.leb_le in A. apply Z.ltb_lt in B. lia.
Qed.
(** [curr_char_map] belongs to [char_map_idx]. *)
Lemma shade_glyph k n x : 0 <= k < 4 -> 0 <= x < W ->
  match nth_error CHAR_MAPS (Z.to_nat k) with
  | None => if Z.testbit rule (around W init rule n x) then if k mod 2 =? 0 then BOX_DRAW_CHAR_BASIC else DONUT_CHAR_BASIC else EMPTY_CHAR_BASIC
  | Some m => nth (Z.to_nat (around W init rule n x)) m 0
  end = glyph W init rule k n x.
Proof.
  intros Hk Hx. unfold glyph. assert (C : cell (S n) x = Z.testbit rule (around W init rule n x)).
  { cbn [Automaton.cell]. replace (0 <=? x) with true by (symmetry; apply Z.leb_le; lia). replace (x <? W) with true by (symmetry; apply Z.ltb_lt; lia). reflexivity. }
  rewrite C. assert (H : k = 0 \/ k = 1 \/ k = 2 \/ k = 3) by lia. destruct H as [-> | [-> | [-> | ->]]]; reflexivity.
Qed.
Lemma columns_ok k n : 0 <= k < 4 -> forall m i buffer, (i + m = N)%nat -> length buffer = N ->
  (forall j, (j < N)%nat -> nth j buffer false = if Nat.ltb j i then cell (S n) (Z.of_nat j) else cell n (Z.of_nat j)) ->
  let r := columns rule (nth_error CHAR_MAPS (Z.to_nat k)) k m i (cell n (Z.of_nat i - 1)) (cell n (Z.of_nat i)) buffer in
  length (fst r) = N /\ (forall j, (j < N)%nat -> nth j (fst r) false = cell (S n) (Z.of_nat j)) /\
  snd r = map (fun x => Chr (glyph W init rule k n x)) (map Z.of_nat (seq i m)).
Proof.
  intros Hk. induction m as [|m IH]; intros i buffer Hi Hl Hb r; subst r.
  - cbn [columns fst snd seq map]. split; [exact Hl|]. split; [|reflexivity]. intros j Hj. rewrite Hb by exact Hj. replace (Nat.ltb j i) with true by (symmetry; apply Nat.ltb_lt; lia). reflexivity.
  - assert (R : nth (i + 1) buffer false = cell n (Z.of_nat i + 1)).
    { destruct (Nat.lt_ge_cases (i + 1) N) as [L|L].
      - rewrite Hb by exact L. replace (Nat.ltb (i + 1) i) with false by (symmetry; apply Nat.ltb_ge; lia). f_equal. lia.
      - rewrite nth_overflow by lia. symmetry. apply cell_out. lia. }
    cbn [columns]. rewrite R. fold (around W init rule n (Z.of_nat i)).
    assert (C : cell (S n) (Z.of_nat i) = Z.testbit rule (around W init rule n (Z.of_nat i))).
    { cbn [Automaton.cell]. replace (0 <=? Z.of_nat i) with true by (symmetry; apply Z.leb_le; lia). replace (Z.of_nat i <? W) with true by (symmetry; apply Z.ltb_lt; lia). reflexivity. }
    rewrite shade_glyph by lia. rewrite <- C.
    assert (E : let r := columns rule (nth_error CHAR_MAPS (Z.to_nat k)) k m (i + 1) (cell n (Z.of_nat (i + 1) - 1)) (cell n (Z.of_nat (i + 1))) (set_nth i (cell (S n) (Z.of_nat i)) buffer) in
      length (fst r) = N /\ (forall j, (j < N)%nat -> nth j (fst r) false = cell (S n) (Z.of_nat j)) /\
      snd r = map (fun x => Chr (glyph W init rule k n x)) (map Z.of_nat (seq (i + 1) m))).
    { apply IH; [lia|rewrite length_set_nth; exact Hl|]. intros j Hj. rewrite nth_set_nth, Hl. rewrite Hb by exact Hj.
      replace (Nat.ltb j N) with true by (symmetry; apply Nat.ltb_lt; exact Hj). rewrite andb_true_r.
      destruct (Nat.eqb i j) eqn:Q; [apply Nat.eqb_eq in Q; subst j; replace (Nat.ltb i (i + 1)) with true by (symmetry; apply Nat.ltb_lt; lia); reflexivity|].
      apply Nat.eqb_neq in Q. replace (Nat.ltb j (i + 1)) with (Nat.ltb j i); [reflexivity|]. destruct (Nat.ltb j i) eqn:U; symmetry; [apply Nat.ltb_lt in U; apply Nat.ltb_lt|apply Nat.ltb_ge in U; apply Nat.ltb_ge]; lia. }
    replace (Z.of_nat (i + 1) - 1) with (Z.of_nat i) in E by lia. replace (Z.of_nat (i + 1)) with (Z.of_nat i + 1) in E by lia.
    cbv zeta in E. destruct (columns rule (nth_error CHAR_MAPS (Z.to_nat k)) k m (i + 1) (cell n (Z.of_nat i)) (cell n (Z.of_nat i + 1)) (set_nth i (cell (S n) (Z.of_nat i)) buffer)) as [b o].
    cbn [fst snd] in *. destruct E as (E1 & E2 & E3). split; [exact E1|]. split; [exact E2|]. rewrite E3. replace (i + 1)%nat with (S i) by lia. reflexivity.
Qed.
Lemma row_ok k n buffer : 0 <= k < 4 -> length buffer = N -> (forall j, (j < N)%nat -> nth j buffer false = cell n (Z.of_nat j)) ->
  exists b, columns rule (nth_error CHAR_MAPS (Z.to_nat k)) k N 0 false (nth 0 buffer false) buffer = (b, map (fun x => Chr (glyph W init rule k n x)) (xs W)) /\
  length b = N /\ forall j, (j < N)%nat -> nth j b false = cell (S n) (Z.of_nat j).
Proof.
  intros Hk Hl Hb. pose proof (columns_ok k n Hk N 0 buffer eq_refl Hl) as H. cbv zeta in H.
  assert (H0 : forall j, (j < N)%nat -> nth j buffer false = if Nat.ltb j 0 then cell (S n) (Z.of_nat j) else cell n (Z.of_nat j)) by exact Hb.
  specialize (H H0). rewrite (cell_out n (Z.of_nat 0 - 1)) in H by lia. rewrite <- (Hb 0%nat ltac:(lia)) in H.
  destruct (columns rule (nth_error CHAR_MAPS (Z.to_nat k)) k N 0 false (nth 0 buffer false) buffer) as [b o]. cbn [fst snd] in H. destruct H as (H1 & H2 & H3).
  exists b. split; [|split; assumption]. rewrite H3. unfold xs. rewrite Nat2Z.id. reflexivity.
Qed.
End P.

(** *** Pauses *)
Lemma land_bit a : negb (Z.land a 1 =? 0) = Z.testbit a 0.
Proof. rewrite (Z.land_ones a 1 ltac:(lia) : Z.land a 1 = a mod 2 ^ 1). rewrite Z.bit0_odd. change (2 ^ 1) with 2. rewrite Zmod_odd. destruct (Z.odd a); reflexivity. Qed.
Lemma land_bits a b : (Z.land a (Z.land b 1) =? 0) = negb (Z.testbit a 0 && Z.testbit b 0).
Proof. rewrite Z.land_assoc. rewrite <- (negb_involutive (Z.land (Z.land a b) 1 =? 0)), land_bit, Z.land_spec. reflexivity. Qed.
Lemma debounce_ok l : forall chk, debounce chk l = chk && forallb (fun ab => Z.testbit (fst ab) 0 && Z.testbit (snd ab) 0) l.
Proof.
  induction l as [|[a b] l IH]; intros chk; cbn [debounce forallb fst snd]; [rewrite andb_true_r; reflexivity|].
  rewrite IH, land_bits. destruct chk, (Z.testbit a 0 && Z.testbit b 0); reflexivity.
Qed.
Lemma held_ok p : debounce (negb (Z.land (first p) 1 =? 0)) (polls p) = held p.
Proof. rewrite debounce_ok, land_bit. reflexivity. Qed.
Lemma rx_after_ok l : rx_after None l = match rev l with c :: _ => Some c | [] => None end.
Proof.
  unfold rx_after. rewrite <- (rev_involutive l) at 1. destruct (rev l) as [|c r] eqn:E; [reflexivity|].
  cbn [rev]. rewrite fold_left_app. reflexivity.
Qed.
Lemma mode_range ps n : 0 <= mode ps n < 4.
Proof. apply Z.mod_pos_bound. lia. Qed.

Section D.
Variables (N P : nat) (rule : Z).
Hypothesis HP : (P < N)%nat.
Local Notation W := (Z.of_nat N).
Local Notation init := (Z.of_nat P).
Lemma mode_snoc before p : mode (before ++ [p]) (S (length before)) = if held p then (mode before (length before) + 1) mod 4 else mode before (length before).
Proof.
  unfold mode. rewrite (firstn_all2 (before ++ [p])) by (rewrite app_length; cbn; lia). rewrite firstn_all. rewrite filter_app, app_length. cbn [filter].
  destruct (held p); cbn [length]; [|rewrite Nat.add_0_r; reflexivity]. rewrite Nat2Z.inj_add. rewrite Zplus_mod_idemp_l. reflexivity.
Qed.
Lemma mode_app before rest n : (n <= length before)%nat -> mode (before ++ rest) n = mode before n.
Proof. intros H. unfold mode. rewrite firstn_app. replace (n - length before)%nat with 0%nat by lia. cbn [firstn]. rewrite app_nil_r. reflexivity. Qed.
Lemma loop_ok : forall l before buffer, length buffer = N ->
  (forall j, (j < N)%nat -> nth j buffer false = cell W init rule (length before) (Z.of_nat j)) ->
  let k := mode before (length before) in
  let r := demo_loop N rule (nth_error CHAR_MAPS (Z.to_nat k)) k buffer None l in
  fst r = concat (map (fun n => line W init rule (mode (before ++ l) n) n) (seq (length before) (length (until_ctrl_c l)))) /\
  (snd r = None <-> existsb ctrl_c l = false).
Proof.
  induction l as [|p l IH]; intros before buffer Hl Hb k r; subst r.
  { cbn. split; [reflexivity|split; reflexivity]. }
  cbn [demo_loop]. destruct (row_ok N P rule HP k (length before) buffer (mode_range _ _) Hl Hb) as (b & E & Hl' & Hb'). rewrite E. rewrite held_ok, rx_after_ok.
  assert (K : (if held p then (k + 1) mod 4 else k) = mode (before ++ [p]) (length (before ++ [p]))).
  { rewrite app_length. cbn [length]. rewrite Nat.add_1_r. rewrite mode_snoc. reflexivity. }
  assert (Hc : (if held p then nth_error CHAR_MAPS (Z.to_nat (if held p then (k + 1) mod 4 else k)) else nth_error CHAR_MAPS (Z.to_nat k)) = nth_error CHAR_MAPS (Z.to_nat (mode (before ++ [p]) (length (before ++ [p]))))).
  { rewrite <- K. destruct (held p); reflexivity. }
  rewrite Hc, K. clear Hc K.
  assert (Hb2 : forall j, (j < N)%nat -> nth j b false = cell W init rule (length (before ++ [p])) (Z.of_nat j)).
  { intros j Hj. rewrite app_length. cbn [length]. rewrite Nat.add_1_r. apply Hb'. exact Hj. }
  specialize (IH (before ++ [p]) b Hl' Hb2). cbv zeta in IH. rewrite <- app_assoc in IH. cbn [app] in IH.
  assert (L0 : line W init rule (mode (before ++ p :: l) (length before)) (length before) = map (fun x => Chr (glyph W init rule k (length before) x)) (xs W) ++ [Chr 10]).
  { rewrite mode_app by lia. reflexivity. }
  cbn [until_ctrl_c existsb].
  destruct (ctrl_c p) eqn:C; unfold ctrl_c in C.
  - assert (S3 : match rev (stored p) with c :: _ => Some c | [] => None end = Some 3) by (destruct (rev (stored p)) as [|[|[[]|[]|]|] ?]; try discriminate C; reflexivity).
    rewrite S3. cbn [fst snd length seq map concat]. rewrite app_nil_r, L0. split; [reflexivity|]. split; intros; discriminate.
  - destruct (demo_loop N rule (nth_error CHAR_MAPS (Z.to_nat (mode (before ++ [p]) (length (before ++ [p]))))) (mode (before ++ [p]) (length (before ++ [p]))) b None l) as [o' e]. cbn [fst snd] in IH.
    assert (G : match match rev (stored p) with c :: _ => Some c | [] => None end with Some 3 => ((map (fun x => Chr (glyph W init rule k (length before) x)) (xs W)) ++ [Chr 10], Some l) | _ => (((map (fun x => Chr (glyph W init rule k (length before) x)) (xs W)) ++ [Chr 10]) ++ o', e) end = (((map (fun x => Chr (glyph W init rule k (length before) x)) (xs W)) ++ [Chr 10]) ++ o', e)).
    { destruct (rev (stored p)) as [|[|[[]|[]|]|] ?]; try discriminate C; reflexivity. }
    rewrite G. cbn [fst snd length seq map concat]. destruct IH as [I1 I2]. split; [|exact I2]. rewrite L0, I1. rewrite app_length. cbn [length]. rewrite Nat.add_1_r. reflexivity.
Qed.
Lemma nth_rep (b : bool) n : forall j, nth j (repeat b n) b = b.
Proof. induction n as [|n IH]; intros [|j]; cbn; auto. Qed.
Lemma nth_map_xs (f : Z -> out) (l : list bool) (g : bool -> out) : length l = N -> (forall j, (j < N)%nat -> g (nth j l false) = f (Z.of_nat j)) -> map g l = map f (xs W).
Proof.
  intros Hl H. apply nth_ext with (d := g false) (d' := f 0); [unfold xs; rewrite !map_length, seq_length, Nat2Z.id; exact Hl|].
  intros j Hj. rewrite map_length, Hl in Hj. rewrite map_nth, H by exact Hj. change (f 0) with (f (Z.of_nat 0)). unfold xs. rewrite map_nth. rewrite map_nth. rewrite Nat2Z.id. rewrite seq_nth by exact Hj. reflexivity.
Qed.
Lemma demo_ok ps : let r := do_demo N P rule None ps in fst r = show W init rule ps /\ (snd r = None <-> existsb ctrl_c ps = false).
Proof.
  intros r. unfold r, do_demo. set (buffer := set_nth P true (repeat false N)).
  assert (Hl : length buffer = N) by (unfold buffer; rewrite length_set_nth, repeat_length; reflexivity).
  assert (Hb : forall j, (j < N)%nat -> nth j buffer false = (Z.of_nat j =? init)).
  { intros j Hj. unfold buffer. rewrite nth_set_nth, repeat_length, nth_rep. replace (Nat.ltb j N) with true by (symmetry; apply Nat.ltb_lt; exact Hj). rewrite andb_true_r.
    destruct (Nat.eqb P j) eqn:E; symmetry; [apply Nat.eqb_eq in E; apply Z.eqb_eq|apply Nat.eqb_neq in E; apply Z.eqb_neq]; lia. }
  destruct (loop_ok ps [] buffer Hl Hb) as [L1 L2]. cbv zeta in L1, L2. cbn [length app] in L1, L2. change (mode [] 0) with 0 in L1, L2. change (Z.to_nat 0) with 0%nat in L1, L2.
  destruct (demo_loop N rule (nth_error CHAR_MAPS 0) 0 buffer None ps) as [o e]. cbn [fst snd] in *. split; [|exact L2]. unfold show, first_line. rewrite L1. f_equal. f_equal.
  apply nth_map_xs; [exact Hl|]. intros j Hj. rewrite Hb by exact Hj. reflexivity.
Qed.
End D.

(** *** The answer *)
Lemma radix_ok l : forall acc n, let r := from_radix_10 acc n l in
  0 <= acc < 256 -> fst r = fold_left (fun a d => 10 * a + d) (digits l) acc mod 256 /\ snd r = (n + length (digits l))%nat.
Proof.
  assert (F : forall ds a, fold_left (fun a d => 10 * a + d) ds (a mod 256) mod 256 = fold_left (fun a d => 10 * a + d) ds a mod 256).
  { induction ds as [|d ds IH]; intros a; cbn [fold_left]; [apply Z.mod_mod; lia|]. rewrite <- IH. rewrite <- (IH (10 * a + d)). f_equal. f_equal.
    rewrite <- Zplus_mod_idemp_l. rewrite <- (Zplus_mod_idemp_l (10 * a)). rewrite Zmult_mod_idemp_r. reflexivity. }
  induction l as [|c l IH]; intros acc n r Ha; subst r; cbn [from_radix_10 digits]; [cbn; rewrite Z.mod_small by lia; split; [reflexivity|lia]|].
  fold (digit c). destruct (digit c); [|cbn; rewrite Z.mod_small by lia; split; [reflexivity|lia]].
  pose proof (IH ((acc * 10 + (c - 48)) mod 256) (S n)) as H. cbv zeta in H. destruct H as [H1 H2]; [apply Z.mod_pos_bound; lia|]. cbn [fold_left length]. split; [|rewrite H2; lia].
  rewrite H1, F. rewrite (Z.mul_comm acc 10). reflexivity.
Qed.
Lemma read_ok : forall l cnt buf, let r := read_chars cnt buf None l in
  fst r = map Chr (firstn cnt (taken l)) /\
  snd r = if Nat.leb cnt (length (taken l)) then Some (buf ++ firstn cnt (taken l)) else None.
Proof.
  induction l as [|x l IH]; intros cnt buf r; subst r.
  - destruct cnt as [|n]; cbn; [rewrite app_nil_r; split; reflexivity|split; reflexivity].
  - destruct cnt as [|n]; [cbn; rewrite app_nil_r; split; reflexivity|]. cbn [read_chars]. rewrite rx_after_ok. unfold taken. cbn [flat_map]. fold (taken l).
    destruct (rev x) as [|c y]; cbn [app].
    + apply IH.
    + specialize (IH n (buf ++ [c])). cbv zeta in IH. destruct (read_chars n (buf ++ [c]) None l) as [o e]. cbn [fst snd] in *. destruct IH as [I1 I2]. cbn [firstn map length Nat.leb]. rewrite I1, I2. rewrite <- app_assoc. split; reflexivity.
Qed.
Lemma set_rule_ok l : set_rule None l =
  (map Chr prompt_text ++ map Chr (firstn 3 (taken l)) ++ (if Nat.leb 3 (length (taken l)) then [Leds (answer (firstn 3 (taken l))); Chr 10] else []),
   if Nat.leb 3 (length (taken l)) then Some (answer (firstn 3 (taken l))) else None).
Proof.
  unfold set_rule. pose proof (read_ok l 3 []) as H. cbv zeta in H. destruct (read_chars 3 [] None l) as [o e]. cbn [fst snd app] in H. destruct H as [-> ->].
  destruct (Nat.leb 3 (length (taken l))); [|rewrite app_nil_r; reflexivity].
  pose proof (radix_ok (firstn 3 (taken l)) 0 0) as R. cbv zeta in R. destruct R as [R1 R2]; [lia|]. destruct (from_radix_10 0 0 (firstn 3 (taken l))) as [num valid]. cbn [fst snd] in R1, R2. rewrite R1, R2.
  unfold answer. destruct (digits (firstn 3 (taken l))) as [|d ds] eqn:D; reflexivity.
Qed.
(** C66: for every line width, start position, rule, history of the button and of characters arriving,
    what the firmware prints and shows on the LEDs is the dialogue. *)
Theorem C66_dialogue : forall N P, (P < N)%nat -> forall l rule, program N P rule l = dialogue (Z.of_nat N) (Z.of_nat P) rule l.
Proof.
  intros N P HP. induction l as [|[ps ks] l IH]; intros rule; [reflexivity|]. cbn [program dialogue].
  destruct (demo_ok N P rule HP ps) as [D1 D2]. cbv zeta in D1, D2. destruct (do_demo N P rule None ps) as [o e]. cbn [fst snd] in *. subst o.
  rewrite set_rule_ok. change prompt_text with the_prompt. destruct (existsb ctrl_c ps).
  - destruct e as [e|]; [|destruct D2 as [D2 _]; discriminate (D2 eq_refl)]. destruct (Nat.leb 3 (length (taken ks))).
    + rewrite IH. rewrite <- !app_assoc. reflexivity.
    + rewrite !app_nil_r. reflexivity.
  - destruct e as [e|]; [destruct D2 as [_ D2]; discriminate (D2 eq_refl)|]. rewrite app_nil_r. reflexivity.
Qed.

(** *** The bytes *)
(** [char::encode_utf8] (attosoc.rs:183-185), for characters below 0x10000: the others do not occur. *)
Definition utf8 (c : Z) : list Z :=
  if c <? 0x80 then [c]
  else if c <? 0x800 then [0xC0 + c / 64; 0x80 + c mod 64]
  else [0xE0 + c / 4096; 0x80 + c / 64 mod 64; 0x80 + c mod 64].
Definition bytes (l : list out) : list Z := flat_map (fun o => match o with Chr c => utf8 c | Leds _ => [] end) l.
(** How a terminal reads UTF-8. *)
Fixpoint reads (l : list Z) : list Z :=
  match l with
  | [] => []
  | a :: r => if a <? 0x80 then a :: reads r
              else match r with
                   | [] => []
                   | b :: r' => if a <? 0xE0 then (64 * (a mod 32) + b mod 64) :: reads r'
                                else match r' with [] => [] | c :: r'' => (4096 * (a mod 16) + 64 * (b mod 64) + c mod 64) :: reads r'' end
                   end
  end.
Lemma reads_utf8 c r : 0 <= c < 0x10000 -> reads (utf8 c ++ r) = c :: reads r.
Proof.
  intros H. unfold utf8. destruct (c <? 0x80) eqn:A; [cbn [app reads]; rewrite A; reflexivity|]. apply Z.ltb_ge in A.
  destruct (c <? 0x800) eqn:B; [apply Z.ltb_lt in B|apply Z.ltb_ge in B]; cbn [app reads].
  - assert (0 <= c / 64 < 32) by (split; [apply Z.div_pos; lia|apply Z.div_lt_upper_bound; lia]).
    replace (0xC0 + c / 64 <? 0x80) with false by (symmetry; apply Z.ltb_ge; lia). replace (0xC0 + c / 64 <? 0xE0) with true by (symmetry; apply Z.ltb_lt; lia).
    f_equal. replace (0xC0 + c / 64) with (c / 64 + 6 * 32) by lia. rewrite Z.mod_add by lia. rewrite (Z.mod_small (c / 64)) by lia.
    replace (0x80 + c mod 64) with (c mod 64 + 2 * 64) by lia. rewrite Z.mod_add, Z.mod_mod by lia. pose proof (Z.div_mod c 64). lia.
  - assert (0 <= c / 4096 < 16) by (split; [apply Z.div_pos; lia|apply Z.div_lt_upper_bound; lia]).
    replace (0xE0 + c / 4096 <? 0x80) with false by (symmetry; apply Z.ltb_ge; lia). replace (0xE0 + c / 4096 <? 0xE0) with false by (symmetry; apply Z.ltb_ge; lia).
    f_equal. replace (0xE0 + c / 4096) with (c / 4096 + 14 * 16) by lia. rewrite Z.mod_add by lia. rewrite (Z.mod_small (c / 4096)) by lia.
    replace (0x80 + c / 64 mod 64) with (c / 64 mod 64 + 2 * 64) by lia. replace (0x80 + c mod 64) with (c mod 64 + 2 * 64) by lia. rewrite !Z.mod_add, !Z.mod_mod by lia.
    pose proof (Z.div_mod c 64). pose proof (Z.div_mod (c / 64) 64). rewrite Z.div_div in * by lia. change (64 * 64) with 4096 in *. lia.
Qed.
Definition chars (l : list out) : list Z := flat_map (fun o => match o with Chr c => [c] | Leds _ => [] end) l.
Lemma reads_bytes l : Forall (fun c => 0 <= c < 0x10000) (chars l) -> reads (bytes l) = chars l.
Proof.
  induction l as [|[c|v] l IH]; intros H; [reflexivity| |exact (IH H)]. unfold chars in H. cbn [flat_map app] in H. inversion H as [|c' l' H1 H2]. subst c' l'.
  unfold bytes, chars. cbn [flat_map app]. rewrite reads_utf8 by exact H1. f_equal. apply IH. exact H2.
Qed.
Lemma around_range W init rule n x : 0 <= around W init rule n x < 8.
Proof. unfold around. destruct (cell W init rule n (x - 1)), (cell W init rule n x), (cell W init rule n (x + 1)); cbn; lia. Qed.
Lemma glyph_range W init rule m n x : 0 <= glyph W init rule m n x < 0x10000.
Proof.
  unfold glyph. pose proof (around_range W init rule n x) as R. remember (around W init rule n x) as a. clear Heqa.
  assert (C : a = 0 \/ a = 1 \/ a = 2 \/ a = 3 \/ a = 4 \/ a = 5 \/ a = 6 \/ a = 7) by lia.
  destruct (m =? 0); [destruct C as [-> | [-> | [-> | [-> | [-> | [-> | [-> | ->]]]]]]]; clear R; vm_compute; split; congruence|].
  destruct (m =? 1); [destruct C as [-> | [-> | [-> | [-> | [-> | [-> | [-> | ->]]]]]]]; clear R; vm_compute; split; congruence|].
  destruct (cell W init rule (S n) x), (m =? 2); lia.
Qed.
Definition all_ok (l : list out) : Prop := Forall (fun c => 0 <= c < 0x10000) (chars l).
Lemma all_ok_app l m : all_ok l -> all_ok m -> all_ok (l ++ m).
Proof. unfold all_ok, chars. rewrite flat_map_app, Forall_app. auto. Qed.
Lemma all_ok_map {A} (f : A -> Z) l : (forall x, In x l -> 0 <= f x < 0x10000) -> all_ok (map (fun x => Chr (f x)) l).
Proof. induction l as [|x l IH]; intros H; [constructor|]. unfold all_ok, chars. cbn [map flat_map app]. constructor; [apply H; left; reflexivity|apply IH; intros y Hy; apply H; right; exact Hy]. Qed.
Lemma all_ok_concat l : Forall all_ok l -> all_ok (concat l).
Proof. induction 1 as [|x l H _ IH]; [constructor|]. cbn [concat]. apply all_ok_app; assumption. Qed.
Lemma nl_ok : all_ok [Chr 10]. Proof. constructor; [lia|constructor]. Qed.
Lemma taken_ok ks : Forall (Forall (fun c => 0 <= c < 256)) ks -> Forall (fun c => 0 <= c < 256) (taken ks).
Proof.
  induction 1 as [|x l H _ IH]; [constructor|]. unfold taken. cbn [flat_map]. rewrite Forall_app. split; [|exact IH]. apply Forall_rev in H. destruct (rev x); [constructor|]. constructor; [inversion H; assumption|constructor].
Qed.
Lemma dialogue_ok W init l : (forall ps ks, In (ps, ks) l -> Forall (Forall (fun c => 0 <= c < 256)) ks) -> forall rule, all_ok (dialogue W init rule l).
Proof.
  induction l as [|[ps ks] l IH]; intros H rule; [constructor|]. cbn [dialogue]. apply all_ok_app.
  - unfold show. apply all_ok_app.
    + unfold first_line. apply all_ok_app; [|exact nl_ok]. apply all_ok_map. intros x _. destruct (x =? init); lia.
    + apply all_ok_concat. apply Forall_forall. intros y Hy. apply in_map_iff in Hy. destruct Hy as (n & <- & _). unfold line. apply all_ok_app; [|exact nl_ok]. apply all_ok_map. intros x _. apply glyph_range.
  - destruct (existsb ctrl_c ps); [|constructor]. pose proof (taken_ok ks (H ps ks (or_introl eq_refl))) as T. apply all_ok_app; [unfold all_ok; cbn; repeat (constructor; [lia|]); constructor|]. apply all_ok_app.
    + apply (all_ok_map (fun x => x)). intros x Hx. rewrite <- (firstn_skipn 3 (taken ks)) in T. rewrite Forall_app in T. destruct T as [T _]. rewrite Forall_forall in T. specialize (T x Hx). lia.
    + destruct (Nat.leb 3 (length (taken ks))); [|constructor]. apply all_ok_app; [unfold all_ok; cbn; constructor; [lia|constructor]|]. apply IH. intros ps' ks' Hi. apply (H ps' ks'). right. exact Hi.
Qed.
(** C66: a terminal that reads the bytes as UTF-8 shows those characters. *)
Theorem C66_terminal_reads : forall N P, (P < N)%nat -> forall l rule,
  (forall ps ks, In (ps, ks) l -> Forall (Forall (fun c => 0 <= c < 256)) ks) ->
  reads (bytes (program N P rule l)) = chars (dialogue (Z.of_nat N) (Z.of_nat P) rule l).
Proof. intros N P HP l rule H. rewrite (C66_dialogue N P HP). apply reads_bytes. apply dialogue_ok. exact H. Qed.

(** ** A concrete case *)
(** Eight cells: two lines in the first character set, the button held after the second, a third line
    in the other one, Ctrl-C; then "30" and a return: the second session runs rule 30. *)
Definition idle_pause := {| first := 0; polls := [(0, 0)]; stored := [] |}.
Definition ex_in : list (list pause * list (list Z)) :=
  [([idle_pause; {| first := 1; polls := [(1, 1); (3, 5)]; stored := [65] |}; {| first := 1; polls := [(1, 0)]; stored := [66; 3] |}; idle_pause], [[]; [51]; []; [120; 48]; [13]; [49]]);
   ([idle_pause; idle_pause], [])].
Example C66_applies :
  dialogue 8 7 110 ex_in = program 8 7 110 ex_in /\
  program 8 7 110 ex_in =
    map Chr ([32; 32; 32; 32; 32; 32; 32; 0x2588; 10] ++ [32; 32; 32; 32; 32; 32; 0x2591; 0x2591; 10] ++
             [32; 32; 32; 32; 32; 0x2591; 0x2592; 0x2588; 10] ++ [32; 32; 32; 32; 46; 58; 64; 35; 10] ++ prompt_text ++ [51; 48; 13]) ++
    [Leds 30; Chr 10] ++ map Chr ([32; 32; 32; 32; 32; 32; 32; 0x2588; 10] ++ [32; 32; 32; 32; 32; 32; 0x2591; 0x2591; 10] ++ [32; 32; 32; 32; 32; 0x2591; 0x2592; 0x2588; 10]).
Proof. split; [symmetry; apply (C66_dialogue 8 7); lia|vm_compute; reflexivity]. Qed.

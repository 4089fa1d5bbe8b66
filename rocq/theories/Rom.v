(** * Loading a program: the [rom] setter of the example SoC *)
From Coq Require Import ZArith Lia Bool List.
From Verif Require Import Bits Ucode Cpu Isa Timed BitLemmas Wf Sym Main Obs PropsBus Observe PropsIsa Memory SocMem Uart Periph Soc SocIo ProgGen SocProg Primes.
From Verif Require Demo.
Import ListNotations.
Open Scope Z_scope.

(** ** Model *)
(** [int.from_bytes(b, byteorder="little")] (attosoc.py:823-824, 827-828). *)
Fixpoint from_bytes (b : list Z) : Z := match b with [] => 0 | x :: r => x + 256 * from_bytes r end.
(** The list comprehension over [range(0, len, 4)] (attosoc.py:823-825, 827-829): a slice past the
    end is shorter than 4 bytes. *)
Definition words_of (b : list Z) : list Z :=
  map (fun i => from_bytes (firstn 4 (skipn (4 * i) b))) (seq 0 ((length b + 3) / 4)).
(** [self.mem.init[:len(mem)] = mem] (attosoc.py:77-79).  [old] are the words of [Memory.init], as
    many as the memory is deep (attosoc.py:67); Amaranth refuses (ValueError) a slice assignment that
    would change their number, and reduces each value to the shape's 32 bits. *)
Definition set_init (old mem : list Z) : option (list Z) :=
  if (length mem <=? length old)%nat then Some (map (fun w => w mod 2 ^ 32) mem ++ skipn (length mem) old) else None.
(** The argument of the setter (attosoc.py:819-831): assembler text, here given by the bytes
    bronzebeard's [assemble] makes of it; bytes; or words. *)
Inductive source := Text (insns : list Z) | Image (b : list Z) | Words (w : list Z).
(** attosoc.py:819-831 *)
Definition set_rom (old : list Z) (s : source) : option (list Z) :=
  match s with
  | Text b => set_init old (words_of b)
  | Image b => set_init old (words_of b)
  | Words w => set_init old w
  end.
(** A segment of an ELF file: load address and the bytes the file has for it ([Segment.data()] of
    pyelftools, which is external). *)
Record segment := { p_paddr : nat; p_data : list Z }.
(** The image made of an ELF file given with [-g]: the bytes of the first two segments, one after the
    other (attosoc.py:934-944: [islice(segs, 2)], [map], [reduce] with [b""]). *)
Definition elf_image (segs : list segment) : list Z := fold_left (fun a b => a ++ b) (map p_data (firstn 2 segs)) [].
(** Memory contents of a new [WBMemory] (attosoc.py:67, [init=[]]). *)
Definition no_rom (depth : nat) : list Z := repeat 0 depth.
(** The RAM at power-on, from [Memory.init]. *)
(** attosoc.py:67: the memory starts with [init]. *)
Definition ram_of (init : list Z) : Z -> Z := fun a => nth (Z.to_nat a) init 0.

(** ** Specification *)
(** Byte [a] of memory contents given as words: little endian. *)
Definition byte_at (m : list Z) (a : nat) : Z := byte (nth (a / 4) m 0) (Z.of_nat (a mod 4)).
Definition bytes_ok (b : list Z) : Prop := Forall (fun x => 0 <= x < 256) b.
Definition words_ok (b : list Z) : Prop := Forall word b.

(** ** Proofs *)
Lemma byte_div w i : byte w i = w / 2 ^ (8 * i) mod 256.
Proof. unfold byte. reflexivity. Qed.
Lemma from_bytes_byte b : bytes_ok b -> forall i, byte (from_bytes b) (Z.of_nat i) = nth i b 0.
Proof.
  induction 1 as [|x r Hx Hr IH]; intros i; rewrite byte_div.
  - cbn [from_bytes]. rewrite Z.div_0_l by (apply Z.pow_nonzero; lia). destruct i; reflexivity.
  - cbn [from_bytes]. destruct i as [|i].
    + change (2 ^ (8 * Z.of_nat 0)) with 1. cbn [nth]. rewrite Z.div_1_r. rewrite (Z.mul_comm 256), Z.mod_add by lia. apply Z.mod_small. lia.
    + cbn [nth]. rewrite <- IH, byte_div. rewrite Nat2Z.inj_succ. unfold Z.succ. replace (8 * (Z.of_nat i + 1)) with (8 + 8 * Z.of_nat i) by lia.
      rewrite Z.pow_add_r by lia. rewrite <- Z.div_div by (try lia; apply Z.pow_pos_nonneg; lia). change (2 ^ 8) with 256.
      rewrite (Z.mul_comm 256), Z.div_add by lia. rewrite (Z.div_small x 256) by lia. reflexivity.
Qed.
Lemma from_bytes_range b : bytes_ok b -> (length b <= 4)%nat -> word (from_bytes b).
Proof.
  intros H L. unfold word. change (2 ^ 32) with 4294967296.
  destruct b as [|x0 [|x1 [|x2 [|x3 [|x4 r]]]]]; cbn [from_bytes length] in *; try lia;
    repeat match goal with H : bytes_ok (_ :: _) |- _ => inversion H; subst; clear H | H : Forall _ (_ :: _) |- _ => inversion H; subst; clear H end; lia.
Qed.
Lemma bytes_ok_part n m b : bytes_ok b -> bytes_ok (firstn n (skipn m b)).
Proof.
  intros H. unfold bytes_ok in *. rewrite <- (firstn_skipn m b) in H. apply Forall_app in H. destruct H as [_ H].
  rewrite <- (firstn_skipn n (skipn m b)) in H. apply Forall_app in H. exact (proj1 H).
Qed.
Lemma nth_firstn {A} (l : list A) n i d : (i < n)%nat -> nth i (firstn n l) d = nth i l d.
Proof. revert n i; induction l as [|x l IH]; intros [|n] [|i] H; cbn; try lia; try reflexivity. apply IH. lia. Qed.
Lemma nth_skipn {A} (l : list A) n i d : nth i (skipn n l) d = nth (n + i) l d.
Proof. revert n; induction l as [|x l IH]; intros [|n]; cbn; try reflexivity; [destruct i; reflexivity|]. apply IH. Qed.
Lemma words_length b : length (words_of b) = ((length b + 3) / 4)%nat.
Proof. unfold words_of. rewrite map_length, seq_length. reflexivity. Qed.
Lemma words_nth b i : (i < (length b + 3) / 4)%nat -> nth i (words_of b) 0 = from_bytes (firstn 4 (skipn (4 * i) b)).
Proof.
  intros H. unfold words_of. set (f := fun j => from_bytes (firstn 4 (skipn (4 * j) b))).
  rewrite nth_indep with (d' := f O) by (rewrite map_length, seq_length; exact H). rewrite (map_nth f), seq_nth by exact H. reflexivity.
Qed.
Lemma words_word b : bytes_ok b -> words_ok (words_of b).
Proof.
  intros H. apply Forall_forall. intros w I. unfold words_of in I. apply in_map_iff in I. destruct I as (i & <- & _).
  apply from_bytes_range; [apply bytes_ok_part; exact H|]. rewrite firstn_length. lia.
Qed.

(** C58: an image is refused exactly when it is longer than the memory; otherwise byte [a] of the
    memory is byte [a] of the image, the rest of the image's last word is zero, and every later
    byte keeps what a previous assignment left there. *)
Theorem C58_rom_image : forall old b, bytes_ok b -> words_ok old ->
  match set_rom old (Image b) with
  | None => (4 * length old < length b)%nat
  | Some new =>
      (length b <= 4 * length old)%nat /\ length new = length old /\ words_ok new /\
      (forall a, (a < length b)%nat -> byte_at new a = nth a b 0) /\
      (forall a, (length b <= a < 4 * ((length b + 3) / 4))%nat -> byte_at new a = 0) /\
      (forall a, (4 * ((length b + 3) / 4) <= a)%nat -> byte_at new a = byte_at old a)
  end.
Proof.
  intros old b Hb Ho. cbn [set_rom]. unfold set_init. rewrite words_length. set (n := ((length b + 3) / 4)%nat).
  assert (Hn : (length b <= 4 * n /\ 4 * n <= length b + 3)%nat).
  { unfold n. pose proof (Nat.div_mod (length b + 3) 4 ltac:(lia)). pose proof (Nat.mod_upper_bound (length b + 3) 4 ltac:(lia)). lia. }
  destruct (Nat.leb_spec n (length old)) as [L|L]; [|lia].
  pose proof (words_word b Hb) as W. pose proof (words_length b) as Lw. fold n in Lw.
  assert (M : map (fun w => w mod 2 ^ 32) (words_of b) = words_of b).
  { rewrite <- (map_id (words_of b)) at 2. apply map_ext_in. intros w I. unfold words_ok in W. rewrite Forall_forall in W. specialize (W w I). apply Z.mod_small. exact W. }
  rewrite M. clear M. split; [lia|]. split; [rewrite app_length, skipn_length, Lw; lia|]. split.
  { apply Forall_app. split; [exact W|]. rewrite <- (firstn_skipn n old) in Ho. apply Forall_app in Ho. apply Ho. }
  assert (In_ : forall a, (a < 4 * n)%nat -> byte_at (words_of b ++ skipn n old) a = nth a b 0).
  { intros a Ha. unfold byte_at. assert (Hq : (a / 4 < n)%nat) by (apply Nat.div_lt_upper_bound; lia).
    rewrite app_nth1 by lia. rewrite words_nth by exact Hq. rewrite from_bytes_byte by (apply bytes_ok_part; assumption).
    rewrite nth_firstn by (apply Nat.mod_upper_bound; lia). rewrite nth_skipn. f_equal. symmetry. apply Nat.div_mod. lia. }
  split; [intros a Ha; apply In_; lia|]. split.
  - intros a Ha. rewrite In_ by lia. apply nth_overflow. lia.
  - intros a Ha. unfold byte_at. assert (Hq : (n <= a / 4)%nat) by (apply Nat.div_le_lower_bound; lia).
    rewrite app_nth2 by lia. rewrite nth_skipn, Lw. do 2 f_equal. lia.
Qed.
(** C58: the same for a list of words. *)
Theorem C58_rom_words : forall old w, words_ok w -> words_ok old ->
  match set_rom old (Words w) with
  | None => (length old < length w)%nat
  | Some new => (length w <= length old)%nat /\ length new = length old /\ words_ok new /\
      (forall i, (i < length w)%nat -> nth i new 0 = nth i w 0) /\
      (forall i, (length w <= i)%nat -> nth i new 0 = nth i old 0)
  end.
Proof.
  intros old w W Ho. cbn [set_rom]. unfold set_init. destruct (Nat.leb_spec (length w) (length old)) as [L|L]; [|lia].
  assert (M : map (fun w => w mod 2 ^ 32) w = w).
  { rewrite <- (map_id w) at 2. apply map_ext_in. intros v I. unfold words_ok in W. rewrite Forall_forall in W. specialize (W v I). apply Z.mod_small. exact W. }
  rewrite M. split; [exact L|]. split; [rewrite app_length, skipn_length; lia|]. split.
  { apply Forall_app. split; [exact W|]. rewrite <- (firstn_skipn (length w) old) in Ho. apply Forall_app in Ho. apply Ho. }
  split; intros i Hi; [apply app_nth1; exact Hi|]. rewrite app_nth2 by lia. rewrite nth_skipn. f_equal. lia.
Qed.

(** C58: an ELF file's first two segments are loaded where the file says, if the first one goes to
    address 0 and the second one follows it without a gap. *)
Theorem C58_elf_image : forall old s1 s2 rest new, bytes_ok (p_data s1) -> bytes_ok (p_data s2) -> words_ok old ->
  p_paddr s1 = O -> p_paddr s2 = length (p_data s1) ->
  set_rom old (Image (elf_image (s1 :: s2 :: rest))) = Some new ->
  forall s, s = s1 \/ s = s2 -> forall i, (i < length (p_data s))%nat -> byte_at new (p_paddr s + i) = nth i (p_data s) 0.
Proof.
  intros old s1 s2 rest new H1 H2 Ho P1 P2 E s Hs i Hi.
  assert (Ei : elf_image (s1 :: s2 :: rest) = p_data s1 ++ p_data s2) by reflexivity. rewrite Ei in E.
  assert (Hb : bytes_ok (p_data s1 ++ p_data s2)) by (apply Forall_app; split; assumption).
  pose proof (C58_rom_image old (p_data s1 ++ p_data s2) Hb Ho) as V. rewrite E in V. destruct V as (_ & _ & _ & V & _).
  rewrite app_length in V. destruct Hs as [->| ->].
  - rewrite P1. cbn [Nat.add]. rewrite V by lia. apply app_nth1. exact Hi.
  - rewrite P2, V by lia. rewrite app_nth2 by lia. f_equal. lia.
Qed.
(** Otherwise it is not: the second segment of a file with a gap lands too low, and a third segment is
    not loaded at all. *)
Example C58_refuted_elf_gap :
  let text := {| p_paddr := 0; p_data := [1; 2] |} in let data := {| p_paddr := 4; p_data := [7] |} in
  let more := {| p_paddr := 5; p_data := [8] |} in
  exists new, set_rom (no_rom 2) (Image (elf_image [text; data; more])) = Some new /\
    byte_at new 4 = 0 /\ byte_at new 2 = 7 /\ byte_at new 5 = 0.
Proof. eexists. split; [reflexivity|]. repeat split. Qed.
(** Non-vacuity of [C58_elf_image]. *)
Example C58_elf_applies :
  let text := {| p_paddr := 0; p_data := [1; 2; 3; 4; 5; 6] |} in let data := {| p_paddr := 6; p_data := [7; 8] |} in
  set_rom (no_rom 2) (Image (elf_image [text; data])) = Some [0x04030201; 0x08070605].
Proof. reflexivity. Qed.

Lemma no_rom_ok d : words_ok (no_rom d).
Proof. apply Forall_forall. intros x I. apply repeat_spec in I. subst x. unfold word. lia. Qed.

(** C58: the core sees the image.  In the SoC with [2 ^ k] words of RAM, initialised with an image,
    every fetch and load from the RAM window returns the image's bytes, wherever the program has not
    stored since. *)
Theorem C58_core_reads_image : forall k D x0 p depth b init, soc_start x0 -> pins_ok p -> 0 <= k -> Z.of_nat depth = 2 ^ k ->
  bytes_ok b -> set_rom (no_rom depth) (Image b) = Some init -> wm_mem (so_mem x0) = ram_of init ->
  let s := so_cpu x0 in let inp := soc_inp k D x0 p in
  forall t, o_cyc (run s inp t) = true -> ack (inp t) = true -> o_we (run s inp t) = false -> 0 <= o_adr (run s inp t) < 2 ^ 23 ->
  forall i, 0 <= i < 4 -> let a := 4 * (o_adr (run s inp t) mod 2 ^ k) + i in
  (forall u, (u < t)%nat -> o_cyc (run s inp u) = true -> ack (inp u) = true -> o_we (run s inp u) = true -> 0 <= o_adr (run s inp u) < 2 ^ 23 ->
     ~ (o_adr (run s inp u) mod 2 ^ k = a / 4 /\ Z.testbit (o_sel (run s inp u)) (a mod 4) = true)) ->
  byte (dat_r (inp t)) i = nth (Z.to_nat a) b 0.
Proof.
  intros k D x0 p depth b init Hs Hp Hk Hd Hb Hset Hm s inp t C A We Ha i Hi a Hno.
  pose proof (C44_soc_memory k D x0 p Hs Hp t C A We Ha i Hi) as V. cbv zeta in V. fold s inp a in V. rewrite V. clear V.
  assert (E : forall n, (n <= t)%nat -> ram_after k (run s inp) (fun u => ack (inp u)) (fun z => byte (wm_mem (so_mem x0) (z / 4)) (z mod 4)) n a = byte (wm_mem (so_mem x0) (a / 4)) (a mod 4)).
  { induction n as [|n IH]; intros L; [reflexivity|]. cbn [ram_after]. rewrite IH by lia.
    destruct (o_cyc (run s inp n)) eqn:Cn; [|reflexivity]. destruct (ack (inp n)) eqn:An; [|reflexivity]. destruct (o_we (run s inp n)) eqn:Wn; [|reflexivity]. cbn [andb].
    destruct (Z.eqb_spec (o_adr (run s inp n) / 2 ^ 23) 0) as [R|]; [|reflexivity]. destruct (Z.eqb_spec (a / 4) (o_adr (run s inp n) mod 2 ^ k)) as [Q|]; [|reflexivity].
    destruct (Z.testbit (o_sel (run s inp n)) (a mod 4)) eqn:T; [|reflexivity]. exfalso. apply (Hno n ltac:(lia) Cn An Wn); [|split; [symmetry; exact Q|exact T]].
    apply Z.div_small_iff in R; lia. }
  rewrite E by lia. rewrite Hm. unfold ram_of.
  pose proof (Z.mod_pos_bound (o_adr (run s inp t)) (2 ^ k) ltac:(apply Z.pow_pos_nonneg; lia)) as Ba.
  assert (A0 : 0 <= a < 4 * 2 ^ k) by (subst a; lia).
  pose proof (C58_rom_image (no_rom depth) b Hb (no_rom_ok depth)) as I. rewrite Hset in I. destruct I as (Ln & Li & _ & I1 & I2 & I3).
  assert (Bt : byte_at init (Z.to_nat a) = byte (nth (Z.to_nat (a / 4)) init 0) (a mod 4)).
  { unfold byte_at. f_equal; [f_equal|].
    - apply Nat2Z.inj. rewrite Nat2Z.inj_div, !Z2Nat.id; [reflexivity|apply Z.div_pos; lia|lia].
    - rewrite Nat2Z.inj_mod, Z2Nat.id by lia. reflexivity. }
  rewrite <- Bt. destruct (Nat.lt_ge_cases (Z.to_nat a) (length b)) as [L|L]; [apply I1; exact L|]. rewrite (nth_overflow b) by exact L.
  destruct (Nat.lt_ge_cases (Z.to_nat a) (4 * ((length b + 3) / 4))) as [L'|L']; [apply I2; lia|]. rewrite I3 by exact L'.
  unfold byte_at, no_rom.
  assert (Z0 : nth (Z.to_nat a / 4) (repeat 0 depth) 0 = 0).
  { destruct (nth_in_or_default (Z.to_nat a / 4) (repeat 0 depth) 0) as [J|J]; [apply repeat_spec in J; exact J|exact J]. }
  rewrite Z0. rewrite byte_div. rewrite Z.div_0_l by (apply Z.pow_nonzero; lia). reflexivity.
Qed.

(** The bytes of the assembled firmware: bronzebeard emits instructions little endian. *)
Definition le_bytes (w : Z) : list Z := [w mod 256; w / 2 ^ 8 mod 256; w / 2 ^ 16 mod 256; w / 2 ^ 24 mod 256].
(** attosoc.py:949-984, 822 *)
Definition demo_bytes : list Z := flat_map le_bytes (map Demo.encode Demo.demo).

(** C58 with C56: constructing the SoC as [demo] does ([AttoSoC(num_bytes=0x1000)], [rom] set to the
    firmware text) gives a SoC that shows the primes. *)
Theorem C58_demo_from_reset : forall D x0 p init, soc_start x0 -> pins_ok p ->
  set_rom (no_rom (0x1000 / 4)) (Text demo_bytes) = Some init -> wm_mem (so_mem x0) = ram_of init ->
  let leds_at t := ld_leds (so_leds (soc_run 10 D x0 p t)) in
  exists P : nat -> Z, P O = 3 /\ (forall n, next_prime (P n) (P (S n))) /\
  (forall t, exists n, shown leds_at t = 0 :: map P (seq 0 n)) /\
  (forall n, exists t, shown leds_at t = 0 :: map P (seq 0 n)).
Proof.
  intros D x0 p init Hs Hp Hset Hm. refine (C56_demo_shows_primes 10 D x0 p Demo.demo Hs Hp _ Demo.demo_assembles _); [lia|].
  intros i ins E. rewrite Hm. unfold ram_of. rewrite Nat2Z.id.
  assert (W : firstn (length Demo.demo) init = Demo.demo_words).
  { assert (S' : option_map (firstn (length Demo.demo)) (set_rom (no_rom (0x1000 / 4)) (Text demo_bytes)) = Some Demo.demo_words) by (vm_compute; reflexivity).
    rewrite Hset in S'. cbn [option_map] in S'. congruence. }
  assert (Li : (i < length Demo.demo)%nat) by (apply nth_error_Some; congruence).
  rewrite <- (nth_firstn init (length Demo.demo)) by exact Li. rewrite W. pose proof Demo.demo_words_decode as Dw.
  apply (f_equal (fun l => nth_error l i)) in Dw. rewrite !nth_error_map, E in Dw. cbn [option_map] in Dw.
  destruct (nth_error Demo.demo_words i) as [w|] eqn:Ew; [|discriminate]. rewrite (nth_error_nth _ _ 0 Ew). cbn [option_map] in Dw. congruence.
Qed.

(** Non-vacuity: a 7-byte image in a 4-word memory that held another program; the demo fits. *)
Example C58_applies :
  bytes_ok [1; 2; 3; 4; 5; 6; 255] /\
  set_rom [0x11111111; 0x22222222; 0x33333333; 0x44444444] (Image [1; 2; 3; 4; 5; 6; 255]) = Some [0x04030201; 0x00ff0605; 0x33333333; 0x44444444] /\
  set_rom (no_rom 1) (Image [1; 2; 3; 4; 5]) = None /\
  (exists init, set_rom (no_rom (0x1000 / 4)) (Text demo_bytes) = Some init /\ length init = 1024%nat).
Proof.
  split; [repeat constructor; lia|]. split; [reflexivity|]. split; [reflexivity|]. eexists. split; vm_compute; reflexivity.
Qed.

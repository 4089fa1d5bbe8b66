(** * C77: the hex file of the firmware (examples/attosoc.py -x) *)
From Coq Require Import Ascii String ZArith Lia Bool List.
From Verif Require Import BitLemmas PropsIsa Rom.
Import ListNotations.
Open Scope Z_scope.

(** ** Model *)
(** A digit of Python's [x] format. *)
Definition digit (d : Z) : ascii := ascii_of_nat (Z.to_nat (if d <? 10 then 48 + d else 87 + d)).
(** Hexadecimal digits of a nonnegative integer, most significant first, none leading zero; [n] bounds their number. *)
Fixpoint hex (n : nat) (z : Z) : list ascii :=
  match n with
  | O => []
  | S n => if z <? 16 then [digit z] else hex n (z / 16) ++ [digit (z mod 16)]
  end.
(** [f"{i:08x}\n"] (examples/attosoc.py:1149) for words of up to 64 bits: padded with zeros to eight digits. *)
Definition newline : ascii := ascii_of_nat 10.
Definition hex_line (i : Z) : list ascii := let h := hex 16 i in repeat "0"%char (8 - length h) ++ h ++ [newline].
(** The file (examples/attosoc.py:1144-1149). *)
Definition hex_file (rom : list Z) : list ascii := flat_map hex_line rom.
(** [-p] (examples/attosoc.py:1158-1161). *)
Inductive platform := CmodS7 | Icebreaker | Icestick | IceHx8k | ArtyA7.
(** [demo] with [-x] (examples/attosoc.py:986-987, 1144-1149): [None] if it raises.  For the Arty [asoc] is
    the enable wrapper by then, a plain Module (lines 1070-1084), which has no attribute [rom]. *)
Definition demo_hex (p : platform) (s : source) : option (list ascii) :=
  match set_rom (no_rom (0x1000 / 4)) s, p with
  | None, _ | _, ArtyA7 => None
  | Some init, _ => Some (hex_file init)
  end.
(** [-r] (examples/attosoc.py:943-944): 0x400 numbers from 0 to 0xffffffff. *)
Definition random_rom (l : list Z) : Prop := length l = 0x400%nat /\ Forall word l.

(** ** Specification: reading such a file *)
Definition value (c : ascii) : option Z :=
  let n := Z.of_nat (nat_of_ascii c) in
  if (48 <=? n) && (n <=? 57) then Some (n - 48) else if (97 <=? n) && (n <=? 102) then Some (n - 87) else None.
(** One number per line; [cur] is the number read so far on this line. *)
Fixpoint read (cur : Z) (l : list ascii) : option (list Z) :=
  match l with
  | [] => Some []
  | c :: l => if Ascii.eqb c "010" then option_map (cons cur) (read 0 l)
              else match value c with Some d => read (16 * cur + d) l | None => None end
  end.

(** ** Proofs *)
Lemma digit_facts d : 0 <= d < 16 -> value (digit d) = Some d /\ Ascii.eqb (digit d) "010" = false.
Proof.
  intros H. assert (d = 0 \/ d = 1 \/ d = 2 \/ d = 3 \/ d = 4 \/ d = 5 \/ d = 6 \/ d = 7 \/ d = 8 \/ d = 9 \/ d = 10 \/ d = 11 \/ d = 12 \/ d = 13 \/ d = 14 \/ d = 15) as E by lia.
  repeat (destruct E as [E|E]; [subst d; split; reflexivity|]). subst d. split; reflexivity.
Qed.
Lemma hex_length n z : forall k, (1 <= k)%nat -> 0 <= z < 16 ^ Z.of_nat k -> (k <= n)%nat -> (length (hex n z) <= k)%nat.
Proof.
  revert z. induction n as [|n IH]; intros z k Hk Hz L; [cbn; lia|]. cbn [hex]. destruct (Z.ltb_spec z 16); [cbn; lia|].
  rewrite app_length. cbn [length]. destruct k as [|k]; [lia|]. rewrite Nat2Z.inj_succ, Z.pow_succ_r in Hz by lia. destruct k as [|k]; [cbn in Hz; lia|].
  specialize (IH (z / 16) (S k) ltac:(lia)). assert (length (hex n (z / 16)) <= S k)%nat; [|lia]. apply IH; [|lia].
  split; [apply Z.div_pos; lia|]. apply Z.div_lt_upper_bound; lia.
Qed.
Lemma read_hex n : forall z cur l, 0 <= z < 16 ^ Z.of_nat n -> (1 <= n)%nat ->
  read cur (hex n z ++ l) = read (16 ^ Z.of_nat (length (hex n z)) * cur + z) l.
Proof.
  induction n as [|n IH]; intros z cur l Hz Hn; [lia|]. cbn [hex]. destruct (Z.ltb_spec z 16).
  - destruct (digit_facts z ltac:(lia)) as [V N]. cbn [app read length]. rewrite N, V. change (16 ^ Z.of_nat 1) with 16. reflexivity.
  - rewrite Nat2Z.inj_succ, Z.pow_succ_r in Hz by lia. pose proof (Z.mod_pos_bound z 16 ltac:(lia)) as Hm. destruct (digit_facts (z mod 16) Hm) as [V N].
    destruct n as [|n]; [cbn in Hz; lia|].
    rewrite <- app_assoc, IH; [|split; [apply Z.div_pos; lia|apply Z.div_lt_upper_bound; lia]|lia].
    cbn [app read]. rewrite N, V. f_equal. rewrite app_length. cbn [length]. rewrite Nat.add_1_r, Nat2Z.inj_succ, Z.pow_succ_r by lia.
    pose proof (Z.div_mod z 16 ltac:(lia)). lia.
Qed.
Lemma read_zeros n l : read 0 (repeat "0"%char n ++ l) = read 0 l.
Proof. induction n as [|n IH]; [reflexivity|]. cbn [repeat app read]. exact IH. Qed.
Lemma read_line i l : word i -> read 0 (hex_line i ++ l) = option_map (cons i) (read 0 l).
Proof.
  intros W. unfold word in W. unfold hex_line. cbv zeta. rewrite <- !app_assoc, read_zeros, read_hex.
  - rewrite Z.mul_0_r, Z.add_0_l. reflexivity.
  - change (16 ^ Z.of_nat 16) with (2 ^ 64). lia.
  - lia.
Qed.
Lemma line_length i : word i -> length (hex_line i) = 9%nat.
Proof.
  intros W. unfold word in W. unfold hex_line. cbv zeta. rewrite !app_length, repeat_length. cbn [length].
  pose proof (hex_length 16 i 8 ltac:(lia) ltac:(change (16 ^ Z.of_nat 8) with (2 ^ 32); lia) ltac:(lia)). lia.
Qed.
Lemma hex_digits n z : 0 <= z -> Forall (fun c => value c <> None) (hex n z).
Proof.
  revert z. induction n as [|n IH]; intros z Hz; [constructor|]. cbn [hex]. destruct (Z.ltb_spec z 16).
  - constructor; [|constructor]. destruct (digit_facts z ltac:(lia)) as [V _]. rewrite V. discriminate.
  - apply Forall_app. split; [apply IH, Z.div_pos; lia|]. constructor; [|constructor].
    destruct (digit_facts (z mod 16) ltac:(apply Z.mod_pos_bound; lia)) as [V _]. rewrite V. discriminate.
Qed.

(** C77: the file has one line of eight lower-case hexadecimal digits per word, and reads back as the words. *)
Theorem C77_hex_file : forall rom, words_ok rom ->
  read 0 (hex_file rom) = Some rom /\ length (hex_file rom) = (9 * length rom)%nat /\
  exists lines, hex_file rom = flat_map (fun l => l ++ ["010"%char]) lines /\ length lines = length rom /\
  Forall (fun l => length l = 8%nat /\ Forall (fun c => value c <> None) l) lines.
Proof.
  intros rom H. split; [|split].
  - induction H as [|i rom W _ IH]; [reflexivity|]. cbn [hex_file flat_map]. fold (hex_file rom). rewrite read_line, IH by assumption. reflexivity.
  - induction H as [|i rom W _ IH]; [reflexivity|]. cbn [hex_file flat_map length]. fold (hex_file rom). rewrite app_length, line_length, IH by assumption. lia.
  - exists (map (fun i => repeat "0"%char (8 - length (hex 16 i)) ++ hex 16 i) rom). split; [|split; [apply map_length|]].
    + unfold hex_file. induction rom as [|i rom IH]; [reflexivity|]. cbn [flat_map map]. rewrite IH by (inversion H; assumption). unfold hex_line. cbv zeta. rewrite <- !app_assoc. reflexivity.
    + apply Forall_map. eapply Forall_impl; [|exact H]. intros i W. pose proof (line_length i W) as L. unfold hex_line in L. cbv zeta in L. rewrite !app_length in L. cbn [length] in L.
      split; [rewrite app_length; lia|]. apply Forall_app. split; [|apply hex_digits; unfold word in W; lia]. apply Forall_forall. intros c Hc. apply repeat_spec in Hc. subst c. discriminate.
Qed.
Lemma set_rom_ok n s init : set_rom (no_rom n) s = Some init -> words_ok init /\ length init = n.
Proof.
  assert (A : forall mem r, set_init (no_rom n) mem = Some r -> words_ok r /\ length r = n).
  { intros mem r. unfold set_init, no_rom. rewrite repeat_length. destruct (Nat.leb_spec (length mem) n) as [L|]; [|discriminate]. intros E. injection E as <-. split.
    - apply Forall_app. split; [apply Forall_map, Forall_forall; intros x _; unfold word; apply Z.mod_pos_bound; lia|].
      apply Forall_forall. intros x Hx. assert (In x (repeat 0 n)) as Hi by (rewrite <- (firstn_skipn (length mem) (repeat 0 n)); apply in_or_app; right; exact Hx).
      apply repeat_spec in Hi. subst x. unfold word. lia.
    - rewrite app_length, map_length, skipn_length, repeat_length. lia. }
  destruct s; apply A.
Qed.
(** C77: [-x] writes the whole initial RAM of the SoC built, 1024 words whatever the firmware (so that a file made
    with [-r] and one made with the firmware have the same number of lines); on the Arty it always raises. *)
Theorem C77_demo_hex : forall p s init, set_rom (no_rom (0x1000 / 4)) s = Some init ->
  length init = 1024%nat /\
  match demo_hex p s with Some f => p <> ArtyA7 /\ read 0 f = Some init /\ length f = (9 * 1024)%nat | None => p = ArtyA7 end.
Proof.
  intros p s init E. destruct (set_rom_ok _ s init E) as [W L]. change (0x1000 / 4)%nat with 1024%nat in L. split; [exact L|].
  unfold demo_hex. rewrite E. destruct (C77_hex_file init W) as (R & Lf & _). rewrite L in Lf. destruct p; try (split; [discriminate|split; [exact R|exact Lf]]). reflexivity.
Qed.
(** C77: a random firmware fits exactly, and is what the file lists. *)
Theorem C77_random : forall p l, random_rom l -> p <> ArtyA7 -> exists f, demo_hex p (Words l) = Some f /\ read 0 f = Some l.
Proof.
  intros p l [L W] Hp. assert (E : set_rom (no_rom (0x1000 / 4)) (Words l) = Some l).
  { change (0x1000 / 4)%nat with 1024%nat. cbn [set_rom]. unfold set_init, no_rom. rewrite repeat_length, L. rewrite skipn_all2 by (rewrite repeat_length; reflexivity).
    replace (0x400 <=? 1024)%nat with true by reflexivity. rewrite app_nil_r. f_equal. rewrite <- (map_id l) at 2. apply map_ext_in. intros x Hx. apply Z.mod_small. exact (proj1 (Forall_forall _ _) W x Hx). }
  destruct (C77_demo_hex p _ _ E) as [_ H]. destruct (demo_hex p (Words l)) as [f|]; [|congruence]. exists f. split; [reflexivity|]. apply H.
Qed.
Example C77_applies :
  hex_line 0x1f = list_ascii_of_string "0000001f" ++ ["010"%char] /\ hex_line 0xdeadbeef = list_ascii_of_string "deadbeef" ++ ["010"%char] /\
  (exists init, set_rom (no_rom (0x1000 / 4)) (Text demo_bytes) = Some init /\ nth 0 init 0 <> 0) /\
  random_rom (repeat 0xcafe 0x400).
Proof.
  split; [reflexivity|]. split; [reflexivity|]. split.
  - destruct (set_rom (no_rom (0x1000 / 4)) (Text demo_bytes)) as [init|] eqn:E; [|exfalso; revert E; vm_compute; discriminate]. exists init. split; [reflexivity|].
    assert (N : option_map (fun l => nth 0 l 0) (set_rom (no_rom (0x1000 / 4)) (Text demo_bytes)) = Some (nth 0 init 0)) by (rewrite E; reflexivity).
    intros Z. rewrite Z in N. revert N. vm_compute. discriminate.
  - split; [apply repeat_length|]. apply Forall_forall. intros x Hx. apply repeat_spec in Hx. subst x. unfold word. lia.
Qed.

(** * C30: the microcode ROM is what the assembly source says

    Everything here is about [assemble] (Asm.v, the model of ucoderom.py:195-252 and of
    the parts of m5pre/m5meta it uses), for every source text, and then about the shipped
    microcode.asm. *)
From Coq Require Import String Ascii List ZArith Bool Lia.
From Verif Require Import Bits Asm MicrocodeText Ucode.
Import ListNotations.
Open Scope Z_scope.

(** ** Specification *)

(** The statements of a program with the address each microinstruction gets: [origin n]
    sets the location counter, every microinstruction takes one word. *)
Fixpoint placed (pc : Z) (l : list stmt) : list (Z * list (string * value)) :=
  match l with
  | [] => []
  | SOrigin z :: r => placed z r
  | SInsn _ asg :: r => (pc, asg) :: placed (pc + 1) r
  | _ :: r => placed pc r
  end.

(** What the source line [asg] says field [fd] is: the number, enumerator or label written
    there, or the field's default if the line does not mention the field. *)
Definition says (i : image) (asg : list (string * value)) (fd : fdef) (z : Z) : Prop :=
  (~ In (f_name fd) (map fst asg) /\ z = f_default fd) \/
  (In (f_name fd, VNum z) asg) \/
  (exists s, In (f_name fd, VId s) asg /\
     ((f_enum fd <> [] /\ In (s, z) (f_enum fd)) \/ (f_enum fd = [] /\ In (s, z) (im_labels i)))).

(** Fields do not overlap and lie inside the word. *)
Definition fields_disjoint (width : Z) (fs : list fdef) : Prop :=
  (forall fd, In fd fs -> 0 <= f_origin fd /\ 0 <= f_width fd /\ f_origin fd + f_width fd <= width) /\
  ForallOrdPairs (fun a b => f_origin a + f_width a <= f_origin b \/ f_origin b + f_width b <= f_origin a) fs.

(** Defaults, enumerators (whose names are distinct) and (for fields without enumerators) labels fit their field. *)
Definition values_fit (i : image) : Prop :=
  forall fd, In fd (im_fields i) ->
    0 <= f_default fd < 2 ^ f_width fd /\
    NoDup (map fst (f_enum fd)) /\
    (forall s z, In (s, z) (f_enum fd) -> 0 <= z < 2 ^ f_width fd) /\
    (f_enum fd = [] -> forall s asg pc, In (pc, asg) (placed 0 (im_stmts i)) ->
       In (f_name fd, VId s) asg -> forall z, In (s, z) (im_labels i) -> 0 <= z < 2 ^ f_width fd).

(** ** Bit lemmas *)
Lemma bits_testbit : forall w lo n k, 0 <= lo -> 0 <= k < n -> Z.testbit (bits w lo n) k = Z.testbit w (lo + k).
Proof.
  intros. unfold bits. rewrite Z.mod_pow2_bits_low by lia. rewrite <- Z.shiftr_div_pow2 by lia.
  rewrite Z.shiftr_spec by lia. f_equal; lia.
Qed.

Lemma bits_range : forall w lo n, 0 <= n -> 0 <= bits w lo n < 2 ^ n.
Proof. intros. unfold bits. apply Z.mod_pos_bound. apply Z.pow_pos_nonneg; lia. Qed.

Lemma small_testbit : forall z n k, 0 <= z < 2 ^ n -> n <= k -> Z.testbit z k = false.
Proof.
  intros z n k H L. destruct (Z.eq_dec z 0) as [->|N]. { apply Z.bits_0. }
  apply Z.bits_above_log2; [lia|]. assert (HH : Z.log2 z < n) by (apply Z.log2_lt_pow2; lia). lia.
Qed.

Lemma eq_small : forall a b n, 0 <= n -> 0 <= a < 2 ^ n -> 0 <= b < 2 ^ n ->
  (forall k, 0 <= k < n -> Z.testbit a k = Z.testbit b k) -> a = b.
Proof.
  intros a b n N A B H. apply Z.bits_inj'. intros k K. destruct (Z_lt_le_dec k n).
  - apply H; lia.
  - rewrite (small_testbit a n), (small_testbit b n); auto.
Qed.

Lemma shiftl_testbit_out : forall z o w k, 0 <= o -> 0 <= z < 2 ^ w -> 0 <= k ->
  k < o \/ o + w <= k -> Z.testbit (Z.shiftl z o) k = false.
Proof.
  intros. rewrite Z.shiftl_spec by lia. destruct (Z_lt_le_dec k o).
  - apply Z.testbit_neg_r; lia.
  - apply (small_testbit z w); lia.
Qed.

(** ** Assembly *)
Lemma assoc_In : forall {A} (l : list (string * A)) n v, assoc n l = Some v -> In (n, v) l.
Proof.
  induction l as [|[k a] r IH]; simpl; intros n v H; [discriminate|].
  destruct (String.eqb_spec k n); [inversion H; subst; auto|auto].
Qed.

Lemma assoc_None : forall {A} (l : list (string * A)) n, assoc n l = None -> ~ In n (map fst l).
Proof.
  induction l as [|[k a] r IH]; simpl; intros n H; [auto|].
  destruct (String.eqb_spec k n); [discriminate|]. intros [E|E]; [auto|]. exact (IH n H E).
Qed.

Lemma assocZ_In : forall l k v, assocZ k l = Some v -> In (k, v) l.
Proof.
  induction l as [|[a b] r IH]; simpl; intros k v H; [discriminate|].
  destruct (Z.eqb_spec a k); [inversion H; subst; auto|auto].
Qed.

Lemma assocZ_None : forall l k, assocZ k l = None -> ~ In k (map fst l).
Proof.
  induction l as [|[a b] r IH]; simpl; intros k H; [auto|].
  destruct (Z.eqb_spec a k); [discriminate|]. intros [E|E]; [auto|]. exact (IH k H E).
Qed.

Lemma data_ok_assoc : forall size d, data_ok size d = true ->
  forall a w, In (a, w) d -> 0 <= a < size /\ assocZ a d = Some w.
Proof.
  induction d as [|[b v] r IH]; simpl; intros D a w I; [tauto|].
  rewrite !andb_true_iff in D. destruct D as [[[D1 D2] D3] D4].
  destruct I as [E|I].
  - inversion E; subst. rewrite Z.eqb_refl. split; [lia|auto].
  - destruct (IH D4 a w I) as [A B]. split; [auto|].
    destruct (Z.eqb_spec b a); auto. subst. rewrite B in D3. discriminate.
Qed.

Lemma emit_placed : forall labels fs l pc d, emit labels fs pc l = Some d ->
  (forall a asg, In (a, asg) (placed pc l) -> exists w, In (a, w) d /\ encode_insn labels fs asg = Some w) /\
  (forall a w, In (a, w) d -> exists asg, In (a, asg) (placed pc l)).
Proof.
  induction l as [|s r IH]; intros pc d E.
  - inversion E; subst. split; simpl; tauto.
  - destruct s; simpl in E |- *; try (apply IH in E; exact E).
    destruct (encode_insn labels fs asg) as [w|] eqn:W; [|discriminate].
    destruct (emit labels fs (pc + 1) r) as [d'|] eqn:D; [|discriminate].
    inversion E; subst. destruct (IH _ _ D) as [A B]. split.
    + intros a x [H|H].
      * inversion H; subst. exists w. split; [now left|auto].
      * destruct (A _ _ H) as [v [V1 V2]]. exists v. split; [now right|auto].
    + intros a v [H|H].
      * inversion H; subst. exists asg. now left.
      * destruct (B _ _ H) as [x X]. exists x. now right.
Qed.

(** The value the encoder gives a field. *)
Definition enc_val labels (asg : list (string * value)) (fd : fdef) : option Z :=
  match assoc (f_name fd) asg with None => Some (f_default fd) | Some v => resolve labels fd v end.

Lemma encode_fields_bits : forall labels asg width fs w,
  fields_disjoint width fs ->
  encode_fields labels asg fs = Some w ->
  (forall fd z, In fd fs -> enc_val labels asg fd = Some z -> 0 <= z < 2 ^ f_width fd) ->
  (forall fd, In fd fs -> exists z, enc_val labels asg fd = Some z /\ bits w (f_origin fd) (f_width fd) = z) /\
  (forall k, 0 <= k -> Z.testbit w k = true -> exists fd, In fd fs /\ f_origin fd <= k < f_origin fd + f_width fd) /\
  0 <= w.
Proof.
  induction fs as [|f fs IH]; intros w [DI DP] E V.
  - inversion E; subst. split; [intros ? []|]. split; [|lia]. intros k _ T. rewrite Z.bits_0 in T. discriminate.
  - simpl in E. destruct (encode_fields labels asg fs) as [w'|] eqn:W; [|discriminate].
    assert (EV : exists z, enc_val labels asg f = Some z /\ w = Z.lor (Z.shiftl z (f_origin f)) w').
    { unfold enc_val. destruct (assoc (f_name f) asg) as [v|].
      - destruct (resolve labels f v) as [z|]; [|discriminate]. inversion E. eauto.
      - inversion E. eauto. }
    clear E. destruct EV as [z [Z1 ->]].
    inversion DP as [|? ? DF DR]; subst. rewrite Forall_forall in DF.
    destruct (IH w') as [I1 [I2 I3]]; auto.
    { split; [intros; apply DI; now right|auto]. }
    { intros. apply V; [now right|auto]. }
    assert (B := V f z (or_introl eq_refl) Z1).
    destruct (DI f (or_introl eq_refl)) as [O1 [O2 O3]].
    split; [|split].
    + intros fd [<-|IN].
      * exists z. split; [auto|]. apply (eq_small _ _ (f_width f)); auto using bits_range.
        intros k K. rewrite bits_testbit by lia. rewrite Z.lor_spec, Z.shiftl_spec by lia.
        replace (f_origin f + k - f_origin f) with k by lia.
        destruct (Z.testbit w' (f_origin f + k)) eqn:T; [|apply orb_false_r].
        destruct (I2 (f_origin f + k)) as [g [G1 G2]]; [lia|auto|].
        specialize (DF g G1). lia.
      * destruct (I1 fd IN) as [y [Y1 Y2]]. exists y. split; [auto|]. rewrite <- Y2.
        destruct (DI fd (or_intror IN)) as [P1 [P2 P3]].
        apply (eq_small _ _ (f_width fd)); auto using bits_range.
        intros k K. rewrite !bits_testbit by lia. rewrite Z.lor_spec.
        rewrite (shiftl_testbit_out z (f_origin f) (f_width f)); auto; try lia.
        specialize (DF fd IN). lia.
    + intros k K T. rewrite Z.lor_spec in T. apply orb_true_iff in T. destruct T as [T|T].
      * exists f. split; [now left|]. destruct (Z_lt_le_dec k (f_origin f)) as [L|L].
        -- rewrite (shiftl_testbit_out z (f_origin f) (f_width f)) in T; try lia; discriminate.
        -- destruct (Z_lt_le_dec k (f_origin f + f_width f)); [lia|].
           rewrite (shiftl_testbit_out z (f_origin f) (f_width f)) in T; try lia; discriminate.
      * destruct (I2 k K T) as [g [G1 G2]]. exists g. split; [now right|auto].
    + apply Z.lor_nonneg. split; [apply Z.shiftl_nonneg; lia|auto].
Qed.

Lemma enc_val_says : forall i asg fd z, enc_val (im_labels i) asg fd = Some z -> says i asg fd z.
Proof.
  unfold enc_val, says. intros i asg fd z H. destruct (assoc (f_name fd) asg) as [v|] eqn:A.
  - apply assoc_In in A. right. destruct v as [n|s]; simpl in H.
    + destruct ((0 <=? n) && (n <? 2 ^ f_width fd)); [|discriminate]. inversion H; subst. auto.
    + right. exists s. split; [auto|]. destruct (f_enum fd) eqn:F.
      * right. split; [auto|]. now apply assoc_In.
      * left. split; [discriminate|]. now apply assoc_In.
  - left. split; [now apply assoc_None|]. now inversion H.
Qed.

Lemma nodup_keys_func : forall {A} (l : list (string * A)) k a b,
  nodup_keys l = true -> In (k, a) l -> In (k, b) l -> a = b.
Proof.
  assert (K : forall {A} (l : list (string * A)) k a, In (k, a) l -> assoc k l <> None).
  { intros A l k a I N. apply assoc_None in N. apply N. change k with (fst (k, a)). now apply in_map. }
  induction l as [|[n v] r IH]; simpl; intros k a b N I J; [tauto|].
  destruct (assoc n r) eqn:E; [discriminate|].
  destruct I as [I|I], J as [J|J].
  - congruence.
  - inversion I; subst. exfalso. exact (K _ _ _ _ J E).
  - inversion J; subst. exfalso. exact (K _ _ _ _ I E).
  - eauto.
Qed.

Lemma nodup_func : forall {A} (l : list (string * A)) k a b,
  NoDup (map fst l) -> In (k, a) l -> In (k, b) l -> a = b.
Proof.
  induction l as [|[n v] r IH]; simpl; intros k a b N I J; [tauto|].
  inversion N as [|? ? N1 N2]; subst.
  destruct I as [I|I], J as [J|J]; [congruence| | |eauto].
  - inversion I; subst. exfalso. apply N1. change k with (fst (k, b)). now apply in_map.
  - inversion J; subst. exfalso. apply N1. change k with (fst (k, a)). now apply in_map.
Qed.

Lemma assemble_inv : forall src i, assemble src = Some i ->
  emit (im_labels i) (im_fields i) 0 (im_stmts i) = Some (im_data i) /\
  data_ok (im_size i) (im_data i) = true /\ im_words i = mem_init (im_size i) (im_data i) /\
  im_labels i = label_table 0 (im_stmts i) /\ nodup_keys (im_labels i) = true.
Proof.
  intros src i. unfold assemble. generalize assemble_fuel. intros fuel H.
  destruct (lex _ _); [|discriminate]. destruct (preprocess _ _ _); [|discriminate].
  destruct (parse _ _) as [ss|]; [|discriminate].
  destruct (find_space ss) as [w z].
  destruct (emit _ _ _ _) as [d|] eqn:E; [|discriminate].
  destruct (data_ok z d && nodup_keys (label_table 0 ss)) eqn:D; [|discriminate].
  apply andb_true_iff in D. inversion H; subst; simpl. tauto.
Qed.

Lemma mem_init_nth : forall size d a, 0 <= a < size ->
  nth_error (mem_init size d) (Z.to_nat a) =
  Some (match assocZ a d with Some v => v | None => 0 end).
Proof.
  intros. unfold mem_init. rewrite nth_error_map.
  rewrite (nth_error_nth' _ 0%nat) by (rewrite seq_length; lia).
  simpl. rewrite seq_nth by lia. simpl. rewrite Z2Nat.id by lia. reflexivity.
Qed.

Lemma encode_insn_inv : forall labels fs asg w, encode_insn labels fs asg = Some w ->
  nodup_keys asg = true /\ (forall n v, In (n, v) asg -> exists fd, In fd fs /\ f_name fd = n) /\
  encode_fields labels asg fs = Some w.
Proof.
  unfold encode_insn. intros labels fs asg w H.
  destruct (nodup_keys asg && _) eqn:D; [|discriminate]. apply andb_true_iff in D. destruct D as [D1 D2].
  split; [auto|]. split; [|auto]. intros n v I. rewrite forallb_forall in D2. specialize (D2 _ I).
  simpl in D2. unfold has_field in D2. apply existsb_exists in D2. destruct D2 as [fd [F1 F2]].
  apply String.eqb_eq in F2. eauto.
Qed.

(** For every source text the assembler accepts whose fields are disjoint and whose values
    fit: the word at the address of every source line, cut at the field boundaries, has
    exactly the values that line says; it has no other bit set; a line only assigns declared
    fields; and words at addresses no line occupies are 0. *)
Theorem C30_rom_says_what_source_says : forall src i,
  assemble src = Some i -> fields_disjoint (im_width i) (im_fields i) -> values_fit i ->
  Z.of_nat (length (im_words i)) = Z.max 0 (im_size i) /\
  (forall pc asg, In (pc, asg) (placed 0 (im_stmts i)) ->
     0 <= pc < im_size i /\
     (forall n v, In (n, v) asg -> exists fd, In fd (im_fields i) /\ f_name fd = n) /\
     exists w, nth_error (im_words i) (Z.to_nat pc) = Some w /\ 0 <= w /\
       (forall fd, In fd (im_fields i) -> forall z,
          says i asg fd z <-> bits w (f_origin fd) (f_width fd) = z) /\
       (forall k, 0 <= k -> Z.testbit w k = true ->
          exists fd, In fd (im_fields i) /\ f_origin fd <= k < f_origin fd + f_width fd)) /\
  (forall pc, 0 <= pc < im_size i -> ~ In pc (map fst (placed 0 (im_stmts i))) ->
     nth_error (im_words i) (Z.to_nat pc) = Some 0).
Proof.
  intros src i A DJ VF. destruct (assemble_inv _ _ A) as [E [D [M [_ NL]]]].
  destruct (emit_placed _ _ _ _ _ E) as [P1 P2]. split; [|split].
  - rewrite M. unfold mem_init. rewrite map_length, seq_length. lia.
  - intros pc asg IN. destruct (P1 _ _ IN) as [w [W1 W2]].
    destruct (data_ok_assoc _ _ D _ _ W1) as [R AZ]. split; [auto|].
    destruct (encode_insn_inv _ _ _ _ W2) as [ND [HF EF]]. split; [auto|].
    exists w. rewrite M, mem_init_nth, AZ by auto. split; [auto|].
    destruct (encode_fields_bits _ _ _ _ _ DJ EF) as [B1 [B2 B3]].
    { intros fd z IF EV. destruct (VF fd IF) as [V1 [VN [V2 V3]]].
      unfold enc_val in EV. destruct (assoc (f_name fd) asg) as [v|] eqn:AS; [|inversion EV; subst; auto].
      apply assoc_In in AS. destruct v as [n|s]; simpl in EV.
      - destruct ((0 <=? n) && (n <? 2 ^ f_width fd)) eqn:Q; [|discriminate]. inversion EV; subst. lia.
      - destruct (f_enum fd) eqn:F; [|apply (assoc_In (p :: l)) in EV; eapply V2; exact EV].
        apply assoc_In in EV. exact (V3 eq_refl _ _ _ IN AS _ EV). }
    split; [auto|]. split; [|auto].
    intros fd IF z. destruct (B1 fd IF) as [y [Y1 Y2]]. rewrite Y2. split.
    + intros S. apply enc_val_says in Y1 as Y3. clear -S Y1 Y3 ND NL VF IF.
      unfold enc_val in Y1.
      destruct (assoc (f_name fd) asg) as [v|] eqn:AS.
      2:{ inversion Y1; subst. apply assoc_None in AS.
          destruct S as [[_ S]|[S|[s [S _]]]]; auto; exfalso; apply AS.
          - change (f_name fd) with (fst (f_name fd, VNum z)). now apply in_map.
          - change (f_name fd) with (fst (f_name fd, VId s)). now apply in_map. }
      pose proof (assoc_In _ _ _ AS) as AI.
      destruct S as [[S _]|[S|[s [S T]]]].
      * exfalso. apply S. change (f_name fd) with (fst (f_name fd, v)). now apply in_map.
      * pose proof (nodup_keys_func _ _ _ _ ND AI S). subst v. simpl in Y1.
        destruct (_ && _); [|discriminate]. now inversion Y1.
      * pose proof (nodup_keys_func _ _ _ _ ND AI S). subst v. simpl in Y1.
        destruct T as [[T1 T2]|[T1 T2]].
        -- destruct (VF fd IF) as [_ [VN _]]. destruct (f_enum fd) as [|e0 er]; [tauto|].
           apply (assoc_In (e0 :: er)) in Y1. exact (nodup_func _ _ _ _ VN Y1 T2).
        -- rewrite T1 in Y1. apply assoc_In in Y1. exact (nodup_keys_func _ _ _ _ NL Y1 T2).
    + intros <-. now apply enc_val_says.
  - intros pc R NI. rewrite M, mem_init_nth by auto. destruct (assocZ pc (im_data i)) as [v|] eqn:Q; [|auto].
    apply assocZ_In in Q. destruct (P2 _ _ Q) as [asg I]. exfalso. apply NI.
    change pc with (fst (pc, asg)). now apply in_map.
Qed.

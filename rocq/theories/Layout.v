(** * C31 (and the field view of C30): [UCodeROM._create_field_layout]

    Model of /repo/src/sentinel/ucoderom.py:254-319: from the fields m5meta found in an
    assembly file and the class attribute [field_map], the [StructLayout] with which ROM
    words are split.  The theorems are for every assembly file (every list of fields). *)
From Coq Require Import String Ascii List ZArith Bool Lia.
From Verif Require Import Bits Asm MicrocodeText Ucode AsmProofs.
Import ListNotations.
Open Scope list_scope.
Open Scope Z_scope.

(** ** Model *)

(** Values of [field_map] (ucoderom.py:117-144): [unsigned(w)] or an Amaranth enum class,
    given by its [Shape.cast] width and its members, aliases included, in source order. *)
Inductive shape := ShUnsigned (w : Z) | ShEnum (w : Z) (members : list (string * Z)).
(** [Shape.cast(...).width] (ucoderom.py:283, 310). *)
Definition shape_width (s : shape) : Z := match s with ShUnsigned w => w | ShEnum w _ => w end.

(** [str.upper] (ucoderom.py:300). *)
Definition up_ascii (c : ascii) : ascii :=
  let n := nat_of_ascii c in if (Nat.leb 97 n && Nat.leb n 122)%bool then ascii_of_nat (n - 32) else c.
(** [str.lower] (ucoderom.py:302). *)
Definition low_ascii (c : ascii) : ascii :=
  let n := nat_of_ascii c in if (Nat.leb 65 n && Nat.leb n 90)%bool then ascii_of_nat (n + 32) else c.
(** ucoderom.py:300-302 *)
Fixpoint smap (f : ascii -> ascii) (s : string) : string :=
  match s with EmptyString => EmptyString | String c r => String (f c) (smap f r) end.
(** Python [str.upper] / [str.lower] on the ASCII identifiers used here. *)
(** ucoderom.py:300 *)
Definition upper := smap up_ascii.
(** ucoderom.py:302 *)
Definition lower := smap low_ascii.

(** Iterating an enum class yields each value once, under its first name. *)
(** Iterating over an enum class yields no aliases (ucoderom.py:302-303). *)
Fixpoint canonical (seen : list Z) (m : list (string * Z)) : list (string * Z) :=
  match m with
  | [] => []
  | (n, v) :: r => if existsb (Z.eqb v) seen then canonical seen r else (n, v) :: canonical (v :: seen) r
  end.

(** ucoderom.py:300-303 *)
Definition has_value (l : list (string * Z)) (n : string) (v : Z) : bool :=
  match assoc n l with Some x => x =? v | None => false end.

(** m5meta represents [bool] as this enum (ucoderom.py:263-265; a dict comparison, so the
    order does not matter). *)
Definition is_bool_enum (e : list (string * Z)) : bool :=
  (Nat.eqb (length e) 2 && has_value e "false" 0 && has_value e "true" 1)%bool.

(** [_check_and_convert_dynamic_enum] (ucoderom.py:294-319) and
    [_check_and_convert_dynamic_shape] (ucoderom.py:277-292): the width of the shape chosen for a
    field, or [None] for the exceptions they raise (a [ShUnsigned] entry for an enum field
    is not a class that can be subscripted or iterated, hence also an exception). *)
Definition check_field (fm : list (string * shape)) (fd : fdef) : option Z :=
  match assoc (f_name fd) fm with
  | None => None
  | Some sh =>
    if (match f_enum fd with [] => false | e => negb (is_bool_enum e) end)
    then
      match sh with
      | ShUnsigned _ => None
      | ShEnum w ms =>
        if forallb (fun kv => has_value ms (upper (fst kv)) (snd kv)) (f_enum fd)
           && forallb (fun kv => has_value (f_enum fd) (lower (fst kv)) (snd kv)) (canonical [] ms)
           && (w =? f_width fd)
        then Some w else None
      end
    else if shape_width sh =? f_width fd then Some (shape_width sh) else None
  end.

(** Python [dict] assignment: an existing key keeps its position. *)
(** Assignment to a dict key (ucoderom.py:266-273). *)
Fixpoint dict_set (d : list (string * Z)) (k : string) (v : Z) : list (string * Z) :=
  match d with
  | [] => [(k, v)]
  | (k', v') :: r => if String.eqb k' k then (k, v) :: r else (k', v') :: dict_set r k v
  end.

(** The key used for padding (ucoderom.py:256, 271-273).  [padding_id] is never
    incremented, so it is the same for every gap. *)
Definition pad_key : string := "_padding_0".

(** [_create_field_layout] (ucoderom.py:254-275), the loop over consecutive pairs.
    [unsigned] of a negative width raises. *)
Fixpoint layout_loop (fm : list (string * shape)) (d : list (string * Z)) (fs : list fdef)
  : option (list (string * Z)) :=
  match fs with
  | [] => Some d
  | f :: r =>
    match check_field fm f with
    | None => None
    | Some w =>
      let d1 := dict_set d (f_name f) w in
      match r with
      | [] => Some d1
      | g :: _ =>
        let gap := f_origin g - (f_origin f + f_width f) in
        if gap =? 0 then layout_loop fm d1 r
        else if gap <? 0 then None
        else layout_loop fm (dict_set d1 pad_key gap) r
      end
    end
  end.
(** [_create_field_layout] (ucoderom.py:254-275). *)
Definition create_field_layout fm fs := layout_loop fm [] fs.

(** Amaranth [StructLayout]: members are placed one after the other. *)
Fixpoint offset_of (d : list (string * Z)) (n : string) : option (Z * Z) :=
  match d with
  | [] => None
  | (k, w) :: r => if String.eqb k n then Some (0, w)
                   else match offset_of r n with Some (o, x) => Some (w + o, x) | None => None end
  end.

(** The field [n] of ROM word [w] as seen through the layout. *)
Definition field_view (d : list (string * Z)) (n : string) (w : Z) : option Z :=
  match offset_of d n with Some (o, x) => Some (bits w o x) | None => None end.

(** ** Specification *)

(** A layout honours the assembly file if every declared field is at its declared origin
    with its declared width. *)
Definition honours (d : list (string * Z)) (fs : list fdef) : Prop :=
  forall fd, In fd fs -> offset_of d (f_name fd) = Some (f_origin fd, f_width fd).

(** The number of places where a field does not start where the previous one ends. *)
Fixpoint gap_count (fs : list fdef) : nat :=
  match fs with
  | f :: ((g :: _) as r) =>
      Nat.add (if f_origin f + f_width f =? f_origin g then 0%nat else 1%nat) (gap_count r)
  | _ => 0%nat
  end.

Definition starts_at_zero (fs : list fdef) : Prop := match fs with [] => True | f :: _ => f_origin f = 0 end.

(** Distinct names, none of them the padding key. *)
Definition names_ok (fs : list fdef) : Prop := NoDup (map f_name fs) /\ ~ In pad_key (map f_name fs).

(** ** Proofs *)
Definition nw (f : fdef) : string * Z := (f_name f, f_width f).
Fixpoint widths (d : list (string * Z)) : Z := match d with [] => 0 | (_, w) :: r => w + widths r end.
Fixpoint contig (o : Z) (fs : list fdef) : Prop :=
  match fs with [] => True | f :: r => f_origin f = o /\ contig (o + f_width f) r end.

Lemma check_field_width : forall fm fd w, check_field fm fd = Some w -> w = f_width fd.
Proof.
  unfold check_field. intros fm fd w H. destruct (assoc (f_name fd) fm) as [sh|]; [|discriminate].
  assert (K : (if shape_width sh =? f_width fd then Some (shape_width sh) else None) = Some w -> w = f_width fd).
  { destruct (Z.eqb_spec (shape_width sh) (f_width fd)); [|discriminate]. intros Q; inversion Q; lia. }
  destruct (match f_enum fd with [] => false | _ => _ end); [|auto].
  destruct sh as [|w' ms]; [discriminate|].
  destruct (forallb _ (f_enum fd) && _ && (w' =? f_width fd)) eqn:E; [|discriminate].
  rewrite !andb_true_iff in E. inversion H; subst. lia.
Qed.

Lemma dict_set_fresh : forall d k v, ~ In k (map fst d) -> dict_set d k v = d ++ [(k, v)].
Proof.
  induction d as [|[a b] r IH]; simpl; intros k v H; auto.
  destruct (String.eqb_spec a k); [subst; tauto|]. rewrite IH by tauto. reflexivity.
Qed.

Lemma dict_set_old : forall p q k u v, ~ In k (map fst p) -> dict_set (p ++ (k, u) :: q) k v = p ++ (k, v) :: q.
Proof.
  induction p as [|[a b] r IH]; simpl; intros q k u v H.
  - rewrite String.eqb_refl. reflexivity.
  - destruct (String.eqb_spec a k); [subst; tauto|]. rewrite IH by tauto. reflexivity.
Qed.

(** The last nonzero gap inside [fs], or [g]. *)
Fixpoint lastgap (g : Z) (fs : list fdef) : Z :=
  match fs with
  | f :: ((h :: _) as r) =>
      let gap := f_origin h - (f_origin f + f_width f) in lastgap (if gap =? 0 then g else gap) r
  | _ => g
  end.

Lemma loop_after_pad : forall fm fs p q g d,
  ~ In pad_key (map fst p) -> NoDup (map f_name fs) -> ~ In pad_key (map f_name fs) ->
  (forall f, In f fs -> ~ In (f_name f) (map fst (p ++ (pad_key, g) :: q))) ->
  layout_loop fm (p ++ (pad_key, g) :: q) fs = Some d ->
  d = p ++ (pad_key, lastgap g fs) :: q ++ map nw fs.
Proof.
  induction fs as [|f r IH]; intros p q g d NP ND NPF FR H.
  - simpl in H. inversion H. simpl. rewrite app_nil_r. reflexivity.
  - simpl in H. destruct (check_field fm f) as [w|] eqn:C; [|discriminate].
    apply check_field_width in C. subst w.
    rewrite dict_set_fresh in H by (apply FR; now left).
    rewrite <- app_assoc in H. simpl in H.
    inversion ND as [|? ? N1 N2]; subst. simpl in NPF.
    assert (FR' : forall x g', In x r -> ~ In (f_name x) (map fst (p ++ (pad_key, g') :: q ++ [nw f]))).
    { intros x g' IX. specialize (FR x (or_intror IX)). rewrite map_app in FR |- *. simpl in FR |- *.
      rewrite map_app. rewrite !in_app_iff in *. simpl in FR |- *. rewrite in_app_iff. simpl. intros K. apply N1.
      destruct K as [K|[K|[K|[K|[]]]]]; try tauto. rewrite K. now apply in_map. }
    destruct r as [|h r'].
    + inversion H. simpl. reflexivity.
    + destruct (f_origin h - (f_origin f + f_width f) =? 0) eqn:G.
      * apply IH in H; auto; try tauto. rewrite H. rewrite <- app_assoc. simpl. simpl in G. rewrite G. reflexivity.
      * destruct (_ <? 0); [discriminate|]. rewrite dict_set_old in H by auto.
        apply IH in H; auto; try tauto. rewrite H. rewrite <- app_assoc. simpl. simpl in G. rewrite G. reflexivity.
Qed.

Lemma loop_before_pad : forall fm fs p d,
  ~ In pad_key (map fst p) -> NoDup (map f_name fs) -> ~ In pad_key (map f_name fs) ->
  (forall f, In f fs -> ~ In (f_name f) (map fst p)) ->
  layout_loop fm p fs = Some d ->
  (gap_count fs = 0%nat /\ d = p ++ map nw fs) \/
  (exists a f h b gap, fs = a ++ f :: h :: b /\ gap_count (a ++ [f]) = 0%nat /\
     gap = f_origin h - (f_origin f + f_width f) /\ gap > 0 /\
     gap_count fs = S (gap_count (h :: b)) /\
     d = p ++ map nw (a ++ [f]) ++ (pad_key, lastgap gap (h :: b)) :: map nw (h :: b)).
Proof.
  induction fs as [|f r IH]; intros p d NP ND NPF FR H.
  - simpl in H. inversion H. left. simpl. rewrite app_nil_r. auto.
  - simpl in H. destruct (check_field fm f) as [w|] eqn:C; [|discriminate].
    apply check_field_width in C. subst w.
    rewrite dict_set_fresh in H by (apply FR; now left).
    inversion ND as [|? ? N1 N2]; subst. simpl in NPF.
    assert (NP' : ~ In pad_key (map fst (p ++ [nw f]))).
    { rewrite map_app, in_app_iff. simpl. tauto. }
    assert (FR' : forall x, In x r -> ~ In (f_name x) (map fst (p ++ [nw f]))).
    { intros x IX. specialize (FR x (or_intror IX)). rewrite map_app, in_app_iff. simpl.
      intros [K|[K|[]]]; [tauto|]. apply N1. rewrite K. now apply in_map. }
    destruct r as [|h r'].
    + inversion H. left. simpl. auto.
    + destruct (f_origin h - (f_origin f + f_width f) =? 0) eqn:G.
      * apply Z.eqb_eq in G. assert (G' : f_origin f + f_width f =? f_origin h = true) by lia.
        apply IH in H; auto; try tauto. destruct H as [[H1 H2]|[a [x [y [b [gap [H1 [H2 [H3 [H4 [H5 H6]]]]]]]]]]].
        -- left. split; [|rewrite H2, <- app_assoc; reflexivity]. simpl. simpl in H1. rewrite G'. exact H1.
        -- right. exists (f :: a), x, y, b, gap. rewrite H1. split; [reflexivity|].
           assert (HD : exists t, a ++ [x] = h :: t).
           { destruct a as [|a0 a']; simpl in H1 |- *; inversion H1; subst; eauto. }
           split; [|split; [auto|split; [auto|split]]].
           ++ change ((f :: a) ++ [x]) with (f :: (a ++ [x])). destruct HD as [t HD].
              rewrite HD in H2 |- *. simpl. rewrite G'. exact H2.
           ++ rewrite <- H5. rewrite <- H1. simpl. rewrite G'. reflexivity.
           ++ rewrite H6, <- app_assoc. reflexivity.
      * destruct (_ <? 0) eqn:L; [discriminate|]. apply Z.eqb_neq in G. apply Z.ltb_ge in L.
        assert (G' : f_origin f + f_width f =? f_origin h = false) by lia.
        change (p ++ [(f_name f, f_width f)]) with (p ++ [nw f]) in H.
        rewrite dict_set_fresh in H by auto.
        apply loop_after_pad in H; auto; try tauto.
        2:{ intros x IX. specialize (FR' x IX). rewrite map_app, in_app_iff. simpl. intros [K|[K|[]]]; [tauto|].
            apply NPF. right. rewrite K. change (In (f_name x) (map f_name (h :: r'))). now apply in_map. }
        right. exists [], f, h, r', (f_origin h - (f_origin f + f_width f)).
        split; [reflexivity|]. split; [reflexivity|]. split; [reflexivity|]. split; [lia|]. split.
        -- simpl. rewrite G'. reflexivity.
        -- rewrite H, <- app_assoc. reflexivity.
Qed.

Lemma gap0_contig : forall fs, gap_count fs = 0%nat -> forall o, (match fs with [] => True | f :: _ => f_origin f = o end) -> contig o fs.
Proof.
  induction fs as [|f r IH]; intros G o O; simpl; auto. split; [auto|].
  destruct r as [|h r']; simpl; auto. simpl in G.
  destruct (Z.eqb_spec (f_origin f + f_width f) (f_origin h)); [|discriminate].
  apply IH; [exact G|]. lia.
Qed.

Lemma offset_app : forall p n w q, ~ In n (map fst p) -> offset_of (p ++ (n, w) :: q) n = Some (widths p, w).
Proof.
  induction p as [|[a b] r IH]; simpl; intros n w q H.
  - rewrite String.eqb_refl. reflexivity.
  - destruct (String.eqb_spec a n); [subst; tauto|]. rewrite IH by tauto. reflexivity.
Qed.

Lemma widths_app : forall p q, widths (p ++ q) = widths p + widths q.
Proof. induction p as [|[a b] r IH]; simpl; intros; [auto|]. rewrite IH. lia. Qed.

Lemma contig_honours : forall fs p o q, contig o fs -> widths p = o -> NoDup (map f_name fs) ->
  (forall f, In f fs -> ~ In (f_name f) (map fst p)) -> honours (p ++ map nw fs ++ q) fs.
Proof.
  induction fs as [|f r IH]; intros p o q C W ND FR fd IN; [destruct IN|].
  simpl in C. destruct C as [C1 C2]. inversion ND as [|? ? N1 N2]; subst x l.
  destruct IN as [<-|IN].
  - simpl. unfold nw at 1. rewrite offset_app by (apply FR; now left). rewrite C1, W. reflexivity.
  - replace (p ++ map nw (f :: r) ++ q) with ((p ++ [nw f]) ++ map nw r ++ q) by (rewrite <- app_assoc; reflexivity).
    eapply IH; eauto.
    + rewrite widths_app. simpl. lia.
    + intros x IX. rewrite map_app, in_app_iff. simpl. intros [K|[K|[]]].
      * exact (FR x (or_intror IX) K).
      * apply N1. rewrite K. now apply in_map.
Qed.

Lemma lastgap_gap0 : forall fs g, gap_count fs = 0%nat -> lastgap g fs = g.
Proof.
  induction fs as [|f r IH]; intros g G; auto. destruct r as [|h r']; auto.
  simpl in G. destruct (Z.eqb_spec (f_origin f + f_width f) (f_origin h)); [|discriminate].
  simpl lastgap. replace (f_origin h - (f_origin f + f_width f)) with 0 by lia. simpl Z.eqb. cbv iota. apply IH. exact G.
Qed.

Lemma honours_app : forall d a b, honours d (a ++ b) <-> honours d a /\ honours d b.
Proof.
  unfold honours. intros. split.
  - intros H. split; intros; apply H; apply in_app_iff; tauto.
  - intros [A B] fd I. apply in_app_iff in I. destruct I; auto.
Qed.

Lemma contig_end : forall a f o, contig o (a ++ [f]) -> o + widths (map nw (a ++ [f])) = f_origin f + f_width f.
Proof.
  induction a as [|x r IH]; intros f o C; simpl in C |- *; [lia|].
  destruct C as [_ C]. apply IH in C. lia.
Qed.

(** Split at the first gap. *)
Lemma first_gap : forall fs n, gap_count fs = S n -> exists a f h b, fs = a ++ f :: h :: b /\
  gap_count (a ++ [f]) = 0%nat /\ f_origin f + f_width f <> f_origin h.
Proof.
  induction fs as [|f r IH]; intros n G; [discriminate|]. destruct r as [|h r']; [discriminate|].
  simpl in G. destruct (Z.eqb_spec (f_origin f + f_width f) (f_origin h)) as [E|N].
  - change (gap_count (h :: r') = S n) in G. destruct (IH n G) as [a [x [y [b [E1 [E2 E3]]]]]].
    exists (f :: a), x, y, b. rewrite E1. split; [reflexivity|]. split; [|auto].
    assert (HD : exists t, a ++ [x] = h :: t).
    { destruct a; simpl in E1 |- *; inversion E1; subst; eauto. }
    destruct HD as [t HD]. change ((f :: a) ++ [x]) with (f :: (a ++ [x])). rewrite HD in E2 |- *.
    simpl. replace (f_origin f + f_width f =? f_origin h) with true by lia. exact E2.
  - exists [], f, h, r'. auto.
Qed.

Lemma nodup_app1 : forall (A : Type) (a b : list A), NoDup (a ++ b) -> NoDup a.
Proof.
  induction a as [|x a IH]; intros b H; [constructor|]. inversion H; subst. constructor; eauto.
  rewrite in_app_iff in *. tauto.
Qed.
Lemma nodup_app2 : forall (A : Type) (a b : list A), NoDup (a ++ b) -> NoDup b.
Proof. induction a as [|x a IH]; intros b H; auto. inversion H; subst. eauto. Qed.

(** Exactly when [_create_field_layout] is right, over all assembly files it accepts: the
    first field is at bit 0 and there is at most one gap between fields. *)
Theorem C31_layout_correct_iff_partial : forall fm fs d,
  names_ok fs -> create_field_layout fm fs = Some d ->
  (honours d fs <-> starts_at_zero fs /\ (gap_count fs <= 1)%nat).
Proof.
  intros fm fs d [ND NP] H. unfold create_field_layout in H.
  apply loop_before_pad in H; auto; simpl; auto.
  destruct H as [[G ->]|[a [f [h [b [gap [E1 [E2 [E3 [E4 [E5 E6]]]]]]]]]]].
  - simpl. split.
    + intros HH. split; [|lia]. destruct fs as [|f r]; simpl; auto.
      specialize (HH f (or_introl eq_refl)). simpl in HH. rewrite String.eqb_refl in HH. congruence.
    + intros [Z0 _]. rewrite <- (app_nil_r (map nw fs)). change (map nw fs ++ []) with ([] ++ map nw fs ++ []).
      eapply contig_honours with (o := 0); auto. apply gap0_contig; auto.
  - simpl in E6.
    assert (EQ : fs = (a ++ [f]) ++ h :: b) by (rewrite <- app_assoc; exact E1).
    assert (ND12 := ND). rewrite EQ, map_app in ND12.
    assert (ND1 : NoDup (map f_name (a ++ [f]))) by (eapply nodup_app1; exact ND12).
    assert (ND2 : NoDup (map f_name (h :: b))) by (eapply nodup_app2; exact ND12).
    assert (NP1 : ~ In pad_key (map f_name (h :: b))).
    { intros K. apply NP. rewrite EQ, map_app, in_app_iff. now right. }
    assert (FP : forall L x, In x (h :: b) -> ~ In (f_name x) (map fst (map nw (a ++ [f]) ++ [(pad_key, L)]))).
    { intros L x IX. rewrite map_app, in_app_iff. simpl. rewrite map_map. intros [K|[K|[]]].
      - change (map (fun x0 => fst (nw x0)) (a ++ [f])) with (map f_name (a ++ [f])) in K.
        revert ND12 K IX. generalize (a ++ [f]). intros l. induction l as [|l0 l IHl]; simpl; [tauto|].
        intros ND12 [K|K] IX; inversion ND12 as [|? ? Q1 Q2]; subst; auto.
        apply Q1. rewrite in_app_iff. right. rewrite K. change (In (f_name x) (map f_name (h :: b))). now apply in_map.
      - apply NP1. rewrite K. now apply in_map. }
    assert (D' : d = (map nw (a ++ [f]) ++ [(pad_key, lastgap gap (h :: b))]) ++ map nw (h :: b)).
    { rewrite <- app_assoc. exact E6. }
    assert (S0 : starts_at_zero fs -> contig 0 (a ++ [f])).
    { intros Z0. apply gap0_contig; auto. rewrite E1 in Z0. destruct a; exact Z0. }
    split.
    + intros HH. remember (lastgap gap (h :: b)) as L eqn:EL. clear EL.
      assert (Z0 : starts_at_zero fs).
      { destruct (a ++ [f]) as [|x t] eqn:AF; [destruct a; discriminate|].
        rewrite EQ. simpl. specialize (HH x). rewrite EQ in HH. specialize (HH (or_introl eq_refl)).
        rewrite E6 in HH. simpl in HH. rewrite String.eqb_refl in HH. congruence. }
      split; [auto|]. rewrite E5.
      destruct (gap_count (h :: b)) as [|n] eqn:GC; [lia|exfalso].
      destruct (first_gap _ _ GC) as [a2 [f2 [h2 [b2 [Q1 [Q2 Q3]]]]]].
      assert (C1 := contig_end _ _ _ (S0 Z0)).
      assert (C2 : contig (f_origin h) (a2 ++ [f2])).
      { apply gap0_contig; auto. destruct a2; simpl in Q1 |- *; inversion Q1; auto. }
      apply contig_end in C2.
      (* offset of h *)
      assert (O1 := HH h). rewrite EQ, in_app_iff in O1. specialize (O1 (or_intror (or_introl eq_refl))).
      rewrite D' in O1. simpl map in O1. unfold nw at 2 in O1. rewrite offset_app in O1 by (apply FP; now left).
      inversion O1 as [O1']. clear O1. rewrite widths_app in O1'. simpl in O1'.
      (* offset of h2 *)
      assert (O2 := HH h2). rewrite EQ, Q1 in O2.
      assert (I2 : In h2 ((a ++ [f]) ++ a2 ++ f2 :: h2 :: b2)) by (rewrite !in_app_iff; simpl; tauto).
      specialize (O2 I2). rewrite D', Q1 in O2.
      replace (map nw (a2 ++ f2 :: h2 :: b2)) with (map nw (a2 ++ [f2]) ++ nw h2 :: map nw b2) in O2.
      2:{ rewrite !map_app. simpl. rewrite <- app_assoc. reflexivity. }
      rewrite app_assoc in O2. unfold nw at 3 in O2. rewrite offset_app in O2.
      2:{ rewrite map_app, in_app_iff. intros [K|K].
          - revert K. apply FP. rewrite Q1. rewrite in_app_iff. simpl. tauto.
          - rewrite map_map in K. change (map (fun x => fst (nw x)) (a2 ++ [f2])) with (map f_name (a2 ++ [f2])) in K.
            rewrite Q1 in ND2. replace (a2 ++ f2 :: h2 :: b2) with ((a2 ++ [f2]) ++ h2 :: b2) in ND2 by (rewrite <- app_assoc; reflexivity).
            rewrite map_app in ND2. simpl in ND2. apply NoDup_remove_2 in ND2. apply ND2. rewrite in_app_iff. now left. }
      inversion O2 as [O2']. clear O2. rewrite !widths_app in O2'. simpl in O2'.
      lia.
    + intros [Z0 GC]. rewrite E5 in GC. assert (GZ : gap_count (h :: b) = 0%nat) by lia.
      rewrite EQ. rewrite honours_app. rewrite (lastgap_gap0 _ _ GZ) in *. split.
      * rewrite E6. apply (contig_honours (a ++ [f]) [] 0); auto.
      * rewrite D'. rewrite <- (app_nil_r (map nw (h :: b))).
        eapply contig_honours; [ | reflexivity | auto | auto].
        apply gap0_contig; auto. rewrite widths_app. simpl.
        assert (C1 := contig_end _ _ _ (S0 Z0)). lia.
Qed.

(** What acceptance guarantees about every field (ucoderom.py:277-319): it is in
    [field_map] with the same width, and enumerators agree in both directions up to case. *)
Theorem C31_accepted_fields_match_field_map : forall fm fs d, create_field_layout fm fs = Some d ->
  forall fd, In fd fs -> exists sh, In (f_name fd, sh) fm /\ shape_width sh = f_width fd /\
    (f_enum fd <> [] -> is_bool_enum (f_enum fd) = false -> exists w ms, sh = ShEnum w ms /\
       (forall k v, In (k, v) (f_enum fd) -> In (upper k, v) ms) /\
       (forall v, In v (map snd ms) -> exists k, In (k, v) ms /\ In (lower k, v) (f_enum fd))).
Proof.
  assert (HV : forall l n v, has_value l n v = true -> In (n, v) l).
  { unfold has_value. intros l n v H. destruct (assoc n l) as [x|] eqn:A; [|discriminate].
    apply assoc_In in A. apply Z.eqb_eq in H. now subst. }
  assert (CN : forall ms seen v, In v (map snd ms) -> In v seen \/ exists k, In (k, v) ms /\ In (k, v) (canonical seen ms)).
  { induction ms as [|[n x] r IH]; simpl; intros seen v I; [tauto|].
    destruct (existsb (Z.eqb x) seen) eqn:E.
    - destruct I as [<-|I].
      + left. apply existsb_exists in E. destruct E as [y [Y1 Y2]]. apply Z.eqb_eq in Y2. now subst.
      + destruct (IH seen v I) as [H|[k [H1 H2]]]; [auto|]. right. exists k. auto.
    - destruct (Z.eq_dec x v) as [<-|N].
      + right. exists n. split; [now left|now left].
      + destruct I as [I|I]; [tauto|]. destruct (IH (x :: seen) v I) as [[H|H]|[k [H1 H2]]]; [tauto|auto|].
        right. exists k. split; [now right|now right]. }
  assert (L : forall fm fs d0 d, layout_loop fm d0 fs = Some d -> forall fd, In fd fs -> check_field fm fd <> None).
  { induction fs as [|f r IH]; intros d0 d H fd I; [destruct I|]. simpl in H.
    destruct (check_field fm f) as [w|] eqn:C; [|discriminate]. destruct I as [<-|I]; [congruence|].
    destruct r as [|g r']; [destruct I|]. destruct (_ =? 0); [eauto|]. destruct (_ <? 0); [discriminate|eauto]. }
  intros fm fs d H fd I. specialize (L _ _ _ _ H fd I). unfold check_field in L.
  destruct (assoc (f_name fd) fm) as [sh|] eqn:A; [|tauto]. exists sh. split; [now apply assoc_In|].
  destruct (f_enum fd) as [|e0 er] eqn:FE.
  - destruct (Z.eqb_spec (shape_width sh) (f_width fd)); [|tauto]. split; [auto|tauto].
  - destruct (is_bool_enum (e0 :: er)) eqn:B; cbn [negb] in L.
    + destruct (Z.eqb_spec (shape_width sh) (f_width fd)); [|tauto]. split; [auto|discriminate].
    + destruct sh as [|w ms]; [tauto|]. destruct (_ && _ && _) eqn:Q in L; [|tauto].
      rewrite !andb_true_iff in Q. destruct Q as [[Q1 Q2] Q3]. apply Z.eqb_eq in Q3. split; [auto|].
      intros _ _. exists w, ms. split; [auto|]. rewrite forallb_forall in Q1, Q2. split.
      * intros k v IK. apply HV. exact (Q1 _ IK).
      * intros v IV. destruct (CN ms [] v IV) as [[]|[k [K1 K2]]]. exists k. split; [auto|]. apply HV. exact (Q2 _ K2).
Qed.

(** ** The counterexample: two gaps *)
Definition two_gaps_asm : string :=
"space m: width 8, size 2; space m; origin 0;
fields m: {
  a: width 1, origin 0, default 0;
  b: width 1, origin 2, default 0;
  c: width 1, origin 5, default 0;
};
a => 1, c => 1;
b => 1;
".
Definition two_gaps_map : list (string * shape) :=
  [("a", ShUnsigned 1); ("b", ShUnsigned 1); ("c", ShUnsigned 1)]%string.

(** An accepted assembly file whose first line writes [c => 1] but whose ROM word, split by
    the layout, has c = 0 (and reads b's neighbour instead). *)
Theorem C31_refuted_two_gaps : exists i d w,
  assemble two_gaps_asm = Some i /\ create_field_layout two_gaps_map (im_fields i) = Some d /\
  names_ok (im_fields i) /\ fields_disjoint (im_width i) (im_fields i) /\ starts_at_zero (im_fields i) /\
  In (0, [("a", VNum 1); ("c", VNum 1)]%string) (placed 0 (im_stmts i)) /\
  nth_error (im_words i) 0 = Some w /\
  field_view d "c" w = Some 0 /\ ~ honours d (im_fields i).
Proof.
  destruct (assemble two_gaps_asm) as [i|] eqn:A.
  2:{ vm_compute in A. discriminate A. }
  vm_compute in A. injection A as <-.
  eexists. eexists. eexists. split; [reflexivity|]. split; [reflexivity|].
  cbn [im_fields im_width im_stmts im_words]. split; [|split; [|split; [|split; [|split; [|split]]]]].
  - split; [|simpl; intros [K|[K|[K|[]]]]; discriminate K].
    simpl. repeat constructor; simpl; intros K; repeat destruct K as [K|K]; try discriminate K; auto.
  - split.
    + intros fd IN. simpl in IN. repeat destruct IN as [<-|IN]; try destruct IN; simpl; lia.
    + repeat constructor; simpl; lia.
  - reflexivity.
  - simpl. now left.
  - reflexivity.
  - reflexivity.
  - intros H. specialize (H {| f_name := "c"; f_origin := 5; f_width := 1; f_enum := []; f_default := 0 |}).
    simpl in H. assert (K := H (or_intror (or_intror (or_introl eq_refl)))). discriminate K.
Qed.

(** ** The shipped microcode *)

(** [field_map] (ucoderom.py:117-144) with the classes of ucodefields.py:25-468. *)
Definition shipped_field_map : list (string * shape) := [
  ("target", ShUnsigned 8);
  ("alu_op", ShEnum 4 [("ADD",0);("SUB",1);("AND",2);("OR",3);("XOR",4);("SLL",5);("SRL",6);("SRA",7);("CMP_LTU",8)]);
  ("cond_test", ShEnum 2 [("EXCEPTION",0);("CMP_ALU_O_ZERO",1);("MEM_VALID",2);("TRUE",3)]);
  ("jmp_type", ShEnum 2 [("CONT",0);("NOP",0);("MAP",1);("DIRECT",2);("DIRECT_ZERO",3)]);
  ("invert_test", ShUnsigned 1);
  ("pc_action", ShEnum 2 [("HOLD",0);("INC",1);("LOAD_ALU_O",2)]);
  ("latch_a", ShUnsigned 1); ("latch_b", ShUnsigned 1);
  ("alu_i_mod", ShEnum 1 [("NONE",0);("INV_MSB_A_B",1)]);
  ("alu_o_mod", ShEnum 2 [("NONE",0);("INV_LSB_O",1);("CLEAR_LSB_O",2)]);
  ("reg_read", ShUnsigned 1); ("reg_write", ShUnsigned 1);
  ("a_src", ShEnum 3 [("GP",0);("IMM",1);("ALU_O",2);("ZERO",3);("FOUR",4);("NEG_ONE",5);("THIRTY_ONE",6)]);
  ("b_src", ShEnum 3 [("GP",0);("PC",1);("IMM",2);("ONE",3);("DAT_R",4);("CSR_IMM",5);("CSR",6);("MCAUSE_LATCH",7)]);
  ("reg_r_sel", ShEnum 1 [("INSN_RS1",0);("INSN_RS2",1)]);
  ("reg_w_sel", ShEnum 1 [("INSN_RD",0);("ZERO",1)]);
  ("csr_op", ShEnum 2 [("NONE",0);("READ_CSR",1);("WRITE_CSR",2)]);
  ("csr_sel", ShEnum 1 [("INSN_CSR",0);("TRG_CSR",1)]);
  ("mem_req", ShUnsigned 1);
  ("mem_sel", ShEnum 2 [("AUTO",0);("BYTE",1);("HWORD",2);("WORD",3)]);
  ("mem_extend", ShEnum 1 [("ZERO",0);("SIGN",1)]);
  ("latch_adr", ShUnsigned 1); ("latch_data", ShUnsigned 1); ("write_mem", ShUnsigned 1);
  ("except_ctl", ShEnum 3 [("NONE",0);("LATCH_DECODER",1);("LATCH_JAL",2);("LATCH_STORE_ADR",3);
                           ("LATCH_LOAD_ADR",4);("ENTER_INT",5);("LEAVE_INT",6)]);
  ("insn_fetch", ShUnsigned 1) ]%string.

(** The layout printed in UCodeROM's docstring (ucoderom.py:76-103). *)
Definition documented_layout : list (string * Z) := [
  ("target",8);("jmp_type",2);("cond_test",2);("invert_test",1);("pc_action",2);("latch_a",1);("latch_b",1);
  ("a_src",3);("b_src",3);("alu_op",4);("alu_i_mod",1);("alu_o_mod",2);("reg_read",1);("reg_write",1);
  ("reg_r_sel",1);("reg_w_sel",1);("csr_op",2);("csr_sel",1);("mem_req",1);("mem_sel",2);("mem_extend",1);
  ("latch_adr",1);("latch_data",1);("write_mem",1);("insn_fetch",1);("except_ctl",3)]%string.

Fixpoint ordpairsb (fs : list fdef) : bool :=
  match fs with
  | [] => true
  | f :: r => forallb (fun g => (f_origin f + f_width f <=? f_origin g) || (f_origin g + f_width g <=? f_origin f)) r
              && ordpairsb r
  end.
Definition disjointb (w : Z) (fs : list fdef) : bool :=
  forallb (fun f => (0 <=? f_origin f) && (0 <=? f_width f) && (f_origin f + f_width f <=? w)) fs && ordpairsb fs.
Lemma disjointb_ok : forall w fs, disjointb w fs = true -> fields_disjoint w fs.
Proof.
  unfold disjointb, fields_disjoint. intros w fs H. apply andb_true_iff in H. destruct H as [A B]. split.
  - intros fd I. rewrite forallb_forall in A. specialize (A _ I). lia.
  - clear A. induction fs as [|f r IH]; [constructor|]. simpl in B. apply andb_true_iff in B. destruct B as [B1 B2].
    constructor; [|auto]. apply Forall_forall. intros g I. rewrite forallb_forall in B1. specialize (B1 _ I). lia.
Qed.
Definition fitsb (i : image) : bool :=
  forallb (fun f => (0 <=? f_default f) && (f_default f <? 2 ^ f_width f) && nodup_keys (f_enum f) &&
     forallb (fun kv => (0 <=? snd kv) && (snd kv <? 2 ^ f_width f)) (f_enum f) &&
     (match f_enum f with [] => forallb (fun kv => (0 <=? snd kv) && (snd kv <? 2 ^ f_width f)) (im_labels i) | _ => true end))
  (im_fields i).
Lemma fitsb_ok : forall i, fitsb i = true -> values_fit i.
Proof.
  unfold fitsb, values_fit. intros i H fd I. rewrite forallb_forall in H. specialize (H _ I). cbv beta in H.
  rewrite !andb_true_iff in H. destruct H as [[[[H1 H2] H3] H4] H5]. split; [lia|]. split; [|split].
  - clear -H3. induction (f_enum fd) as [|[k v] r IH]; [constructor|]. simpl in H3 |- *.
    destruct (assoc k r) eqn:A; [discriminate|]. constructor; [now apply assoc_None|auto].
  - intros s z IS. rewrite forallb_forall in H4. specialize (H4 _ IS). simpl in H4. lia.
  - intros E s asg pc _ _ z IZ. rewrite E, forallb_forall in H5. specialize (H5 _ IZ). simpl in H5. lia.
Qed.
Fixpoint nodupb (l : list string) : bool :=
  match l with [] => true | x :: r => negb (existsb (String.eqb x) r) && nodupb r end.
Lemma nodupb_ok : forall l, nodupb l = true -> NoDup l.
Proof.
  induction l as [|x r IH]; intros H; [constructor|]. simpl in H. apply andb_true_iff in H. destruct H as [A B].
  constructor; [|auto]. intros I. apply negb_true_iff in A.
  assert (existsb (String.eqb x) r = true); [|congruence]. apply existsb_exists. exists x. split; [auto|apply String.eqb_refl].
Qed.

Definition shipped : image :=
  Eval vm_compute in match assemble microcode_asm with Some i => i
    | None => {| im_width := 0; im_size := 0; im_fields := []; im_labels := []; im_data := []; im_words := []; im_stmts := [] |} end.
Lemma shipped_assembles : assemble microcode_asm = Some shipped.
Proof. vm_compute. reflexivity. Qed.

(** The shipped microcode.asm assembles; its ROM is the one the CPU model runs
    ([rom_words]); it meets every hypothesis of [C30_rom_says_what_source_says] and of
    [C31_layout_correct_iff_partial]; and its layout is the documented one, with every field where the
    source puts it. *)
Theorem C30_shipped_rom : exists i,
  assemble microcode_asm = Some i /\ im_words i = rom_words /\ im_width i = 48 /\ im_size i = 256 /\
  fields_disjoint 48 (im_fields i) /\ values_fit i /\ names_ok (im_fields i) /\
  create_field_layout shipped_field_map (im_fields i) = Some documented_layout /\
  honours documented_layout (im_fields i) /\ widths documented_layout = 48.
Proof.
  exists shipped. split; [exact shipped_assembles|]. split; [reflexivity|]. split; [reflexivity|]. split; [reflexivity|].
  split; [apply disjointb_ok; vm_compute; reflexivity|]. split; [apply fitsb_ok; vm_compute; reflexivity|].
  assert (N : names_ok (im_fields shipped)).
  { split; [apply nodupb_ok; vm_compute; reflexivity|]. vm_compute. intros K.
    repeat (destruct K as [K|K]; [discriminate K|]). exact K. }
  split; [exact N|].
  assert (C : create_field_layout shipped_field_map (im_fields shipped) = Some documented_layout) by (vm_compute; reflexivity).
  split; [exact C|]. split; [|reflexivity].
  apply (C31_layout_correct_iff_partial _ _ _ N C). split; [reflexivity|]. vm_compute. lia.
Qed.

(** Splitting and packing are inverse: a word is determined by its fields, for any
    contiguous layout that starts at bit 0; and every combination of field values is the
    splitting of some word. *)
Fixpoint unpack (d : list (string * Z)) (w : Z) : list Z :=
  match d with [] => [] | (_, n) :: r => (w mod 2 ^ n) :: unpack r (w / 2 ^ n) end.
Fixpoint pack (d : list (string * Z)) (vs : list Z) : Z :=
  match d, vs with (_, n) :: r, v :: t => v + 2 ^ n * pack r t | _, _ => 0 end.

Lemma unpack_is_view : forall d, NoDup (map fst d) -> (forall k n, In (k, n) d -> 0 <= n) -> forall w k v,
  In (k, v) (combine (map fst d) (unpack d w)) -> field_view d k w = Some v.
Proof.
  induction d as [|[n x] r IH]; intros ND P w k v I; [destruct I|]. simpl in I. inversion ND as [|? ? N1 N2]; subst.
  assert (X0 : 0 <= x) by (apply (P n); now left).
  unfold field_view. simpl. destruct I as [E|I].
  - inversion E; subst. rewrite String.eqb_refl. unfold bits. rewrite Z.pow_0_r, Z.div_1_r. reflexivity.
  - destruct (String.eqb_spec n k).
    + exfalso. subst. apply in_combine_l in I. tauto.
    + apply IH in I; auto. 2:{ intros. eapply P. right. eauto. }
      unfold field_view in I. destruct (offset_of r k) as [[o y]|] eqn:O; [|discriminate].
      assert (O0 : 0 <= o).
      { clear -O P. revert o O. assert (Q : forall k n, In (k, n) r -> 0 <= n) by (intros; eapply P; right; eauto). clear P.
        induction r as [|[m z] r IH]; intros o O; [discriminate|]. simpl in O. destruct (String.eqb m k); [inversion O; lia|].
        destruct (offset_of r k) as [[o' y']|] eqn:O'; [|discriminate]. inversion O; subst.
        assert (0 <= o') by (apply IH; auto; intros; eapply Q; right; eauto).
        assert (0 <= z) by (eapply Q; left; eauto). lia. }
      rewrite <- I. unfold bits. f_equal. rewrite Z.div_div by (try apply Z.pow_pos_nonneg; try apply Z.pow_nonzero; lia).
      rewrite <- Z.pow_add_r by lia. reflexivity.
Qed.

Theorem C30_pack_unpack : forall d, (forall k n, In (k, n) d -> 0 <= n) ->
  (forall w, 0 <= w < 2 ^ widths d -> pack d (unpack d w) = w) /\
  (forall vs, Forall2 (fun kn v => 0 <= v < 2 ^ snd kn) d vs ->
     unpack d (pack d vs) = vs /\ 0 <= pack d vs < 2 ^ widths d).
Proof.
  induction d as [|[k n] r IH]; intros P.
  - split; [intros w H; simpl in *; lia|]. intros vs F. inversion F; subst. simpl. split; [auto|lia].
  - assert (N : 0 <= n) by (eapply P; left; eauto).
    destruct IH as [A B]; [intros; eapply P; right; eauto|].
    assert (W : 0 <= widths r).
    { assert (Q : forall k n, In (k, n) r -> 0 <= n) by (intros; eapply P; right; eauto). clear -Q.
      induction r as [|[m z] r IH]; simpl; [lia|]. assert (0 <= z) by (eapply Q; left; eauto).
      assert (0 <= widths r) by (apply IH; intros; eapply Q; right; eauto). lia. }
    assert (P2 : 0 < 2 ^ n) by (apply Z.pow_pos_nonneg; lia).
    simpl widths. rewrite Z.pow_add_r by lia. split.
    + intros w H. simpl. rewrite A.
      * pose proof (Z.div_mod w (2 ^ n)). lia.
      * split; [apply Z.div_pos; lia|]. apply Z.div_lt_upper_bound; lia.
    + intros vs F. inversion F as [|? v ? t F1 F2]; subst. simpl in F1. destruct (B t F2) as [B1 B2]. simpl.
      assert (D : (v + 2 ^ n * pack r t) / 2 ^ n = pack r t).
      { rewrite Z.mul_comm, Z.div_add by lia. rewrite Z.div_small by lia. lia. }
      assert (M : (v + 2 ^ n * pack r t) mod 2 ^ n = v).
      { rewrite Z.mul_comm, Z.mod_add by lia. apply Z.mod_small; lia. }
      rewrite D, M, B1. split; [auto|]. nia.
Qed.

(** The decoded microinstruction used by the CPU model is the documented layout's view of
    the word, field by field. *)
Definition view (n : string) (w : Z) : Z := match field_view documented_layout n w with Some z => z | None => 0 end.
Theorem C30_fields_are_layout_view : forall w,
  u_target (dec_uinsn w) = view "target" w /\ u_jmp (dec_uinsn w) = dec_jmp (view "jmp_type" w) /\
  u_cond (dec_uinsn w) = dec_cond (view "cond_test" w) /\ u_inv (dec_uinsn w) = (view "invert_test" w =? 1) /\
  u_pc (dec_uinsn w) = dec_pc (view "pc_action" w) /\ u_latch_a (dec_uinsn w) = (view "latch_a" w =? 1) /\
  u_latch_b (dec_uinsn w) = (view "latch_b" w =? 1) /\ u_a (dec_uinsn w) = dec_a (view "a_src" w) /\
  u_b (dec_uinsn w) = dec_b (view "b_src" w) /\ u_op (dec_uinsn w) = dec_op (view "alu_op" w) /\
  u_imod (dec_uinsn w) = dec_imod (view "alu_i_mod" w) /\ u_omod (dec_uinsn w) = dec_omod (view "alu_o_mod" w) /\
  u_rread (dec_uinsn w) = (view "reg_read" w =? 1) /\ u_rwrite (dec_uinsn w) = (view "reg_write" w =? 1) /\
  u_rsel (dec_uinsn w) = dec_rr (view "reg_r_sel" w) /\ u_wsel (dec_uinsn w) = dec_rw (view "reg_w_sel" w) /\
  u_csr (dec_uinsn w) = dec_co (view "csr_op" w) /\ u_csel (dec_uinsn w) = dec_cs (view "csr_sel" w) /\
  u_mreq (dec_uinsn w) = (view "mem_req" w =? 1) /\ u_msel (dec_uinsn w) = dec_ms (view "mem_sel" w) /\
  u_mext (dec_uinsn w) = dec_me (view "mem_extend" w) /\ u_ladr (dec_uinsn w) = (view "latch_adr" w =? 1) /\
  u_ldata (dec_uinsn w) = (view "latch_data" w =? 1) /\ u_wmem (dec_uinsn w) = (view "write_mem" w =? 1) /\
  u_fetch (dec_uinsn w) = (view "insn_fetch" w =? 1) /\ u_exc (dec_uinsn w) = dec_x (view "except_ctl" w).
Proof. intros w. unfold view, field_view. simpl offset_of. cbv iota beta. repeat split. Qed.

(** The microcode memory of the CPU model reads back the assembled words. *)
Theorem C30_rom_reads_assembled_words : forall a, 0 <= a < 256 ->
  exists w, nth_error rom_words (Z.to_nat a) = Some w /\ rom a = dec_uinsn w.
Proof.
  intros a H. unfold rom. assert (E : rom_table = map dec_uinsn rom_words) by (vm_compute; reflexivity).
  rewrite E. destruct (nth_error rom_words (Z.to_nat a)) as [w|] eqn:N.
  - exists w. split; [auto|]. apply nth_error_nth. rewrite nth_error_map, N. reflexivity.
  - exfalso. apply nth_error_None in N. change (length rom_words) with 256%nat in N. lia.
Qed.

(** A file with exactly one gap meets the hypotheses of [C31_layout_correct_iff_partial] and is laid
    out correctly. *)
Example C31_layout_correct_iff_partial_applies :
  let fs := [{| f_name := "a"; f_origin := 0; f_width := 3; f_enum := []; f_default := 0 |};
             {| f_name := "b"; f_origin := 5; f_width := 1; f_enum := []; f_default := 0 |};
             {| f_name := "c"; f_origin := 6; f_width := 2; f_enum := []; f_default := 0 |}]%string in
  names_ok fs /\ exists d, create_field_layout [("a", ShUnsigned 3); ("b", ShUnsigned 1); ("c", ShUnsigned 2)]%string fs = Some d
    /\ gap_count fs = 1%nat /\ honours d fs.
Proof.
  intros fs. assert (N : names_ok fs).
  { split; [apply nodupb_ok; reflexivity|]. simpl. intros [K|[K|[K|[]]]]; discriminate K. }
  split; [exact N|]. exists [("a",3);("_padding_0",2);("b",1);("c",2)]%string. split; [reflexivity|]. split; [reflexivity|].
  apply (C31_layout_correct_iff_partial [("a", ShUnsigned 3); ("b", ShUnsigned 1); ("c", ShUnsigned 2)]%string); [exact N|reflexivity|]. split; [reflexivity|]. vm_compute. lia.
Qed.

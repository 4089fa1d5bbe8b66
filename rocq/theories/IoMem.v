(** * C82, C83: the whole SoC runs programs like an RV32I machine with RAM and devices, also when it is reset *)
From Coq Require Import ZArith Lia Bool List.
From Verif Require Import Bits Ucode Cpu Isa Timed BitLemmas Wf Sym Blocks CsrBlocks DecodeOk Boundary Sim Main Obs PropsBus PropsInv Observe PropsIsa Latency PropsFrame InputsMatter Memory SocMem Crash Uart Periph Soc SocIo.
Import ListNotations.
Open Scope Z_scope.

(** ** Specification: RV32I machine with RAM and devices *)
(** What the world outside RAM contributes to one instruction: the interrupt line while it runs, the word an instruction fetch from outside the
    RAM finds, and the word a load from outside the RAM finds. *)
Record event := { e_int : nat -> bool; e_code : Z; e_data : Z }.
(** One instruction.  [ram] says which word addresses belong to the RAM, [phys] which of its words answers. *)
Definition io_step (ram : Z -> bool) (phys : Z -> Z) (am : arch * (Z -> Z)) (e : event) : arch * (Z -> Z) :=
  let (a, m) := am in
  let w := if ram (pc a / 4) then peek phys m (pc a) 4 else e_code e in
  if int_enabled a && e_int e 1%nat then (interrupt a, m) else
  match decode w with
  | None => (exception SENTINEL a (illegal_cause SENTINEL w), m)
  | Some i =>
    if is_csr i && (int_enabled a && e_int e 2%nat) then (interrupt a, m) else
    match i with
    | Load sz sgn rd rs1 off =>
        let ea := (rd_x a rs1 + off) mod 2 ^ 32 in
        if aligned sz ea then
          let v := if ram (ea / 4) then peek phys m ea (Z.to_nat (bytes sz)) else fld (e_data e) (8 * (ea mod 4)) (8 * bytes sz) in
          (advance (wr_x a rd (if sgn then sext (8 * bytes sz) v mod 2 ^ 32 else v)), m)
        else (exception SENTINEL a 4, m)
    | Store sz rs1 rs2 off =>
        let ea := (rd_x a rs1 + off) mod 2 ^ 32 in
        if aligned sz ea then (advance a, if ram (ea / 4) then poke phys m ea (Z.to_nat (bytes sz)) (rd_x a rs2) else m)
        else (exception SENTINEL a 6, m)
    | _ => match exec SENTINEL a (e_int e 3%nat) i with Fetching a' => (a', m) | Accessing _ _ => (a, m) (* not reached *) end
    end
  end.
(** [n] instructions. *)
Fixpoint io_run (ram : Z -> bool) (phys : Z -> Z) (ev : nat -> event) (n : nat) (am : arch * (Z -> Z)) : arch * (Z -> Z) :=
  match n with O => am | S n => io_step ram phys (io_run ram phys ev n am) (ev n) end.
(** [ev] is what really happened before cycle [t]: instruction [n] is the one fetched when [n] fetches had been completed, and the data transfer after it is its own. *)
Definition happened (s : state) (inp : nat -> input) (ev : nat -> event) (t : nat) : Prop :=
  forall u, (u < t)%nat -> o_cyc (run s inp u) = true -> ack (inp u) = true ->
  if u_fetch (s_u (run s inp u))
  then e_code (ev (fetched_before s inp u)) = dat_r (inp u) /\ forall i, e_int (ev (fetched_before s inp u)) i = irq (inp (u + i)%nat)
  else exists n, fetched_before s inp u = S n /\ e_data (ev n) = dat_r (inp u).

(** ** Proofs *)
Lemma io_run_ext ram phys ev ev' n am : (forall j, (j < n)%nat -> ev j = ev' j) -> io_run ram phys ev n am = io_run ram phys ev' n am.
Proof. induction n as [|n IH]; intros H; [reflexivity|]. cbn [io_run]. rewrite IH by (intros; apply H; lia). rewrite H by lia. reflexivity. Qed.
Definition with_data (e : event) (d : Z) : event := {| e_int := e_int e; e_code := e_code e; e_data := d |}.

Section G.
Variables (ram : Z -> bool) (phys : Z -> Z) (s : state) (inp : nat -> input) (m0 : Z -> Z).
(** The RAM after the acknowledged writes to it. *)
Fixpoint ram_mem (t : nat) : Z -> Z :=
  match t with
  | O => m0
  | S n => let x := run s inp n in
      fun z => if o_cyc x && ack (inp n) && o_we x && ram (o_adr x) && (z / 4 =? phys (o_adr x)) && Z.testbit (o_sel x) (z mod 4) then byte (o_dat_w x) (z mod 4) else ram_mem n z
  end.
Definition ram_slave : Prop := forall t, let x := run s inp t in
  o_cyc x = true -> ack (inp t) = true -> o_we x = false -> ram (o_adr x) = true ->
  forall i, 0 <= i < 4 -> byte (dat_r (inp t)) i = ram_mem t (4 * phys (o_adr x) + i).
Hypotheses (K : ok s inp) (Sl : ram_slave).
Local Notation fb := (fetched_before s inp).
Local Notation io ev n := (io_run ram phys ev n (boot_arch s, m0)).

Lemma code_word t a m : o_cyc (run s inp t) = true -> ack (inp t) = true -> machine s inp t = Fetching a ->
  (forall z, m z = ram_mem t z) -> dat_r (inp t) = if ram (pc a / 4) then peek phys m (pc a) 4 else dat_r (inp t).
Proof.
  intros C A M Hm. pose proof (bus_shows s inp K t C) as Sh. rewrite M in Sh. cbn [request] in Sh. destruct Sh. cbn [q_adr q_sel q_we q_dat] in *.
  pose proof (b_rel _ _ _ (fetch_boundary s inp K t a C A M)) as R. pose proof (pc_word a _ R) as P4.
  destruct (ram (pc a / 4)) eqn:Rm; [|reflexivity].
  rewrite <- (word_fld (dat_r (inp t))) at 1 by apply K. symmetry. change 32 with (8 * Z.of_nat 4). apply peek_fld; [lia|].
  intros i Hi. rewrite loc_add by lia. rewrite P4, Hm. rewrite <- sh_adr in Rm. specialize (Sl t C A sh_we Rm i ltac:(lia)). rewrite sh_adr in Sl.
  rewrite (Z.add_0_l i). rewrite <- Sl. unfold byte. reflexivity.
Qed.

Definition io_tracks (ev : nat -> event) (t : nat) : Prop :=
  match machine s inp t with
  | Fetching a => fst (io ev (fb t)) = a /\ forall z, snd (io ev (fb t)) z = ram_mem t z
  | Accessing r k => exists n, fb t = S n /\ (forall u, (u < t)%nat -> o_cyc (run s inp u) = true -> ack (inp u) = true -> u_fetch (s_u (run s inp u)) = false -> fb u <> S n) /\ (forall z, snd (io ev n) z = ram_mem t z) /\
      forall d, let y := io_step ram phys (io ev n) (with_data (ev n) d) in
      if q_we r then (forall x, k x = fst y) /\
        forall z, snd y z = if ram (q_adr r) && (z / 4 =? phys (q_adr r)) && Z.testbit (q_sel r) (z mod 4) then byte (q_dat r) (z mod 4) else ram_mem t z
      else (forall z, snd y z = ram_mem t z) /\
        if ram (q_adr r) then forall x, (forall i, 0 <= i < 4 -> byte x i = ram_mem t (4 * phys (q_adr r) + i)) -> k x = fst y else k d = fst y
  end.

Lemma fb_le u t : (u <= t)%nat -> (fb u <= fb t)%nat.
Proof. intros H. induction t as [|t IH]; [replace u with O by lia; lia|]. destruct (Nat.eq_dec u (S t)) as [->|]; [lia|]. specialize (IH ltac:(lia)). unfold fetched_before in *. rewrite (count_S _ t). lia. Qed.
(** The state of the machine at an earlier cycle depends only on the events of the instructions before it, and not on the data of the one in progress. *)
Lemma io_tracks_ext ev ev' u : (forall j, (S j < fb u)%nat -> ev' j = ev j) -> (forall j d, fb u = S j -> with_data (ev' j) d = with_data (ev j) d) ->
  (forall a, machine s inp u = Fetching a -> forall j, fb u = S j -> ev' j = ev j) -> io_tracks ev u -> io_tracks ev' u.
Proof.
  intros H1 H2 H3. unfold io_tracks. destruct (machine s inp u) as [a|r k].
  - rewrite (io_run_ext ram phys ev' ev); [auto|]. intros j Hj. destruct (Nat.eq_dec (S j) (fb u)) as [E|]; [apply (H3 a eq_refl); congruence|apply H1; lia].
  - intros (n & En & Nd & Hm & H). exists n. split; [exact En|]. split; [exact Nd|]. rewrite (io_run_ext ram phys ev' ev) by (intros; apply H1; lia).
    split; [exact Hm|]. intros d. rewrite H2 by exact En. apply H.
Qed.
(** While nothing is transferred the machine waits. *)
Lemma machine_waits u t : (u <= t)%nat -> (forall x, (u <= x < t)%nat -> o_cyc (run s inp x) && ack (inp x) = false) -> machine s inp t = machine s inp u.
Proof.
  intros L. induction L as [|t L IH]; intros H; [reflexivity|]. rewrite machine_noack by (apply H; lia). apply IH. intros; apply H; lia.
Qed.
Lemma io_tracks_past t : exists ev, happened s inp ev t /\ forall u, (u <= t)%nat -> io_tracks ev u.
Proof.
  induction t as [|t (ev & Hp & Past)].
  - exists (fun _ => {| e_int := fun _ => false; e_code := 0; e_data := 0 |}). split; [intros u Hu; lia|]. intros u Hu. replace u with O by lia. split; [reflexivity|intros z; reflexivity].
  - pose proof (Past t (le_n _)) as IH. unfold io_tracks in IH. assert (Fb : fb (S t) = (fb t + if o_cyc (run s inp t) && ack (inp t) && u_fetch (s_u (run s inp t)) then 1 else 0)%nat) by apply count_S.
    destruct (o_cyc (run s inp t) && ack (inp t)) eqn:Q.
    2:{ exists ev. split.
        - intros u Hu C A. destruct (Nat.eq_dec u t) as [->|]; [rewrite C, A in Q; discriminate|apply Hp; try assumption; lia].
        - intros v Hv. destruct (Nat.eq_dec v (S t)) as [->|]; [|apply Past; lia]. unfold io_tracks. rewrite machine_noack by exact Q. cbn [andb] in Fb. rewrite Nat.add_0_r in Fb. rewrite Fb. cbn [ram_mem]. cbv zeta. rewrite Q. cbn [andb]. destruct (machine s inp t); [exact IH|]. destruct IH as (n & En & Nd & IH). exists n. split; [exact En|]. split; [|exact IH].
          intros u Hu C A. destruct (Nat.eq_dec u t) as [->|]; [rewrite C, A in Q; discriminate|apply Nd; try assumption; lia]. }
    apply andb_prop in Q. destruct Q as [C A]. cbn [andb] in Fb.
    pose proof (fetch_iff s inp K t C) as Fi. pose proof (bus_shows s inp K t C) as Sh.
    assert (Sm : forall z, ram_mem (S t) z = if o_we (run s inp t) && ram (o_adr (run s inp t)) && (z / 4 =? phys (o_adr (run s inp t))) && Z.testbit (o_sel (run s inp t)) (z mod 4)
         then byte (o_dat_w (run s inp t)) (z mod 4) else ram_mem t z).
    { intros z. cbn [ram_mem]. rewrite C, A. reflexivity. }
    pose proof (machine_ack s inp t C A) as Ma. destruct (machine s inp t) as [a|r k] eqn:M; rewrite Fi in Fb; cbn [complete] in Ma.
    + (* fetch *)
      destruct IH as [Ha Hm]. rewrite (Nat.add_1_r (fb t)) in Fb.
      set (e := {| e_int := fun i => irq (inp (t + i)%nat); e_code := dat_r (inp t); e_data := 0 |}).
      set (ev' := fun j => if Nat.eqb j (fb t) then e else ev j).
      assert (X : io ev' (fb t) = io ev (fb t)). { apply io_run_ext. intros j Hj. unfold ev'. rewrite (proj2 (Nat.eqb_neq _ _)) by lia. reflexivity. }
      assert (E' : ev' (fb t) = e) by (unfold ev'; rewrite Nat.eqb_refl; reflexivity).
      assert (Old : forall u, (u < S t)%nat -> o_cyc (run s inp u) = true -> ack (inp u) = true -> u_fetch (s_u (run s inp u)) = false -> fb u <> S (fb t)).
      { intros u Hu _ _ _. pose proof (fb_le u t ltac:(lia)). lia. }
      exists ev'. split.
      { intros u Hu Cu Au. destruct (Nat.eq_dec u t) as [->|Ne].
        - rewrite Fi, E'. split; [reflexivity|]. intros i. reflexivity.
        - assert (Lu : (u < t)%nat) by lia. specialize (Hp u Lu Cu Au).
          assert (Mono : (fb (S u) <= fb t)%nat).
          { apply fb_le. lia. }
          assert (Fu : fb (S u) = (fb u + if o_cyc (run s inp u) && ack (inp u) && u_fetch (s_u (run s inp u)) then 1 else 0)%nat) by apply count_S. rewrite Cu, Au in Fu. cbn [andb] in Fu.
          destruct (u_fetch (s_u (run s inp u))).
          + unfold ev'. rewrite (proj2 (Nat.eqb_neq _ _)) by lia. exact Hp.
          + destruct Hp as (n & En & Hn). exists n. split; [exact En|]. unfold ev'. rewrite (proj2 (Nat.eqb_neq _ _)) by lia. exact Hn. }
      intros v Hv. destruct (Nat.eq_dec v (S t)) as [->|Nv].
      2:{ pose proof (fb_le v t ltac:(lia)). apply (io_tracks_ext ev); [| | |apply Past; lia].
          - intros j Hj. unfold ev'. rewrite (proj2 (Nat.eqb_neq _ _)) by lia. reflexivity.
          - intros j d Hj. unfold ev'. rewrite (proj2 (Nat.eqb_neq _ _)) by lia. reflexivity.
          - intros b _ j Hj. unfold ev'. rewrite (proj2 (Nat.eqb_neq _ _)) by lia. reflexivity. }
      unfold io_tracks. rewrite Ma, Fb.
      destruct Sh. cbn [request q_adr q_sel q_we q_dat] in *. rewrite sh_we in Sm. cbn [andb] in Sm.
      pose proof (code_word t a (snd (io ev (fb t))) C A M Hm) as Hw.
      assert (St : forall d, io_step ram phys (io ev' (fb t)) (with_data e d) = io_step ram phys (a, snd (io ev (fb t))) (with_data e d)) by (intros d; rewrite X, <- Ha, <- surjective_pairing; reflexivity).
      assert (Y : io_step ram phys (io ev' (fb t)) e = io_step ram phys (a, snd (io ev (fb t))) e) by (rewrite X, <- Ha, <- surjective_pairing; reflexivity).
      set (m := snd (io ev (fb t))) in *. 
      unfold irqs, fetched. cbv zeta.
      assert (W : forall d, (if ram (pc a / 4) then peek phys m (pc a) 4 else e_code (with_data e d)) = dat_r (inp t)) by (intros d; symmetry; exact Hw).
      assert (W0 : (if ram (pc a / 4) then peek phys m (pc a) 4 else e_code e) = dat_r (inp t)) by (symmetry; exact Hw).
      assert (Mz : forall z, m z = ram_mem (S t) z) by (intros z; rewrite Sm; apply Hm).
      assert (Done : forall b, io_step ram phys (a, m) e = (b, m) -> fst (io ev' (S (fb t))) = b /\ forall z, snd (io ev' (S (fb t))) z = ram_mem (S t) z).
      { intros b Eb. cbn [io_run]. rewrite E', Y, Eb. split; [reflexivity|exact Mz]. }
      destruct (int_enabled a && irq (inp (t + 1)%nat)) eqn:I1.
      { apply Done. unfold io_step. cbn [e_int e]. rewrite I1. reflexivity. }
      destruct (decode (dat_r (inp t))) as [i|] eqn:Dw.
      2:{ apply Done. unfold io_step. cbn [e_int e]. rewrite I1. fold e. rewrite W0, Dw. reflexivity. }
      destruct (is_csr i && (int_enabled a && irq (inp (t + 2)%nat))) eqn:I2.
      { apply Done. unfold io_step. cbn [e_int e]. rewrite I1. fold e. rewrite W0, Dw, I2. reflexivity. }
      destruct i; try (apply Done; unfold io_step; cbn [e_int e]; rewrite I1; fold e; rewrite W0, Dw, I2; reflexivity); cbn [exec]; cbv zeta.
      * destruct (aligned sz ((rd_x a rs1 + off) mod 2 ^ 32)) eqn:Al.
        2:{ apply Done. unfold io_step. cbn [e_int e]. rewrite I1. fold e. rewrite W0, Dw, I2. cbv zeta. rewrite Al. reflexivity. }
        set (ea := (rd_x a rs1 + off) mod 2 ^ 32) in *. exists (fb t). split; [reflexivity|]. split; [exact Old|]. split; [rewrite X; exact Mz|]. intros d. rewrite E', St. cbn [q_we q_adr q_sel q_dat].
        unfold io_step. cbn [e_int e with_data]. rewrite I1. fold e. change (e_code _) with (e_code (with_data e d)). rewrite W, Dw, I2. fold ea. rewrite Al. cbn [fst snd].
        split; [exact Mz|]. destruct (ram (ea / 4)).
        -- intros x Hx. rewrite (load_peek phys m x sz sgn ea Al); [reflexivity|]. intros i Hi _. rewrite Mz. apply Hx. exact Hi.
        -- reflexivity.
      * destruct (aligned sz ((rd_x a rs1 + off) mod 2 ^ 32)) eqn:Al.
        2:{ apply Done. unfold io_step. cbn [e_int e]. rewrite I1. fold e. rewrite W0, Dw, I2. cbv zeta. rewrite Al. reflexivity. }
        set (ea := (rd_x a rs1 + off) mod 2 ^ 32) in *. exists (fb t). split; [reflexivity|]. split; [exact Old|]. split; [rewrite X; exact Mz|]. intros d. rewrite E', St. cbn [q_we q_adr q_sel q_dat].
        unfold io_step. cbn [e_int e with_data]. rewrite I1. fold e. change (e_code _) with (e_code (with_data e d)). rewrite W, Dw, I2. fold ea. rewrite Al. cbn [fst snd].
        split; [reflexivity|]. intros z. destruct (ram (ea / 4)); cbn [andb]; [|apply Mz].
        rewrite poke_spec. 2:{ rewrite bytes_nat. apply (lane_cases (fun e n => e + n <= 4) sz _ Al); intros; lia. }
        rewrite bytes_nat, <- (lanes_z sz _ z Al). destruct (_ =? phys _); cbn [andb]; [|apply Mz].
        destruct (Z.testbit (lanes sz _) (z mod 4)) eqn:Tl; [|apply Mz]. symmetry. apply store_lane; assumption.
    + (* data *)
      destruct IH as (n & En & Nd & Hm & H). rewrite Nat.add_0_r in Fb.
      set (ev' := fun j => if Nat.eqb j n then with_data (ev n) (dat_r (inp t)) else ev j).
      assert (X : io ev' n = io ev n). { apply io_run_ext. intros j Hj. unfold ev'. rewrite (proj2 (Nat.eqb_neq _ _)) by lia. reflexivity. }
      assert (E' : ev' n = with_data (ev n) (dat_r (inp t))) by (unfold ev'; rewrite Nat.eqb_refl; reflexivity).
      exists ev'. split.
      { intros u Hu Cu Au. destruct (Nat.eq_dec u t) as [->|Ne].
        - rewrite Fi. exists n. split; [exact En|]. rewrite E'. reflexivity.
        - assert (Lu : (u < t)%nat) by lia. specialize (Hp u Lu Cu Au). destruct (u_fetch (s_u (run s inp u))) eqn:Fu.
          + unfold ev'. destruct (Nat.eqb_spec (fb u) n) as [<-|]; exact Hp.
          + destruct Hp as (j & Ej & Hj). exists j. split; [exact Ej|]. unfold ev'. destruct (Nat.eqb_spec j n) as [->|]; [|exact Hj]. exfalso. exact (Nd u Lu Cu Au Fu Ej). }
      intros v Hv. destruct (Nat.eq_dec v (S t)) as [->|Nv].
      2:{ apply (io_tracks_ext ev); [| | |apply Past; lia].
          - intros j Hj. pose proof (fb_le v t ltac:(lia)). unfold ev'. rewrite (proj2 (Nat.eqb_neq _ _)) by lia. reflexivity.
          - intros j d Hj. unfold ev'. destruct (Nat.eqb_spec j n) as [->|]; reflexivity.
          - intros b Mb j Hj. unfold ev'. destruct (Nat.eqb_spec j n) as [->|]; [exfalso|reflexivity].
            rewrite (machine_waits v t) in M; [congruence|lia|]. intros x Hx. apply not_true_iff_false. intros Q. apply andb_prop in Q. destruct Q as [Cx Ax].
            destruct (u_fetch (s_u (run s inp x))) eqn:Ux; [|refine (Nd x ltac:(lia) Cx Ax Ux _); pose proof (fb_le v x ltac:(lia)); pose proof (fb_le x t ltac:(lia)); lia].
            assert (Fx : fb (S x) = (fb x + if o_cyc (run s inp x) && ack (inp x) && u_fetch (s_u (run s inp x)) then 1 else 0)%nat) by apply count_S. rewrite Cx, Ax, Ux in Fx. cbn [andb] in Fx.
            pose proof (fb_le v x ltac:(lia)). pose proof (fb_le (S x) t ltac:(lia)). lia. }
      unfold io_tracks. rewrite Ma, Fb, En.
      specialize (H (dat_r (inp t))). cbv zeta in H. cbn [io_run]. rewrite E', X. set (y := io_step ram phys (io ev n) (with_data (ev n) (dat_r (inp t)))) in *.
      cbn [request] in Sh. destruct Sh. destruct (q_we r) eqn:We.
      * destruct H as [Hk Hy]. split; [symmetry; apply Hk|]. intros z. rewrite Hy, Sm, sh_we, sh_adr, sh_sel, sh_dat by reflexivity. reflexivity.
      * destruct H as [Hy Hk]. split; [|intros z; rewrite Hy, Sm, sh_we; reflexivity]. symmetry. destruct (ram (q_adr r)) eqn:Rm; [|exact Hk].
        apply Hk. intros i Hi. rewrite <- sh_adr in Rm |- *. apply Sl; assumption.
Qed.
Lemma io_tracks_all t : exists ev, happened s inp ev t /\ io_tracks ev t.
Proof. destruct (io_tracks_past t) as (ev & H & P). exists ev. split; [exact H|]. apply P. lia. Qed.
End G.

(** ** AttoSoC *)
Section S.
Variables (k D : Z) (x0 : soc) (p : nat -> pins).
Hypothesis (Hs : soc_start x0) (Hp : pins_ok p).
Local Notation s := (so_cpu x0).
Local Notation inp := (soc_inp k D x0 p).
Local Notation m0 := (fun z => byte (wm_mem (so_mem x0) (z / 4)) (z mod 4)).
Local Notation ram := (fun a => a <? 2 ^ 23).
Local Notation phys := (fun a => a mod 2 ^ k).

Lemma adr_range t : 0 <= o_adr (run s inp t).
Proof.
  assert (W : wf (run s inp t)). { destruct (st_cpu _ Hs) as (? & ? & ? & _ & W). apply run_wf; [exact W|]. intros u. apply (soc_ok k D x0 p Hs Hp). }
  unfold o_adr, addr_align_adr. pose proof (wf_pc _ W). pose proof (wf_data_adr _ W). unfold inw, word in *. repeat match goal with |- context [if ?c then _ else _] => destruct c end; unfold bits; try apply Z.mod_pos_bound; lia.
Qed.
Lemma below t : (o_adr (run s inp t) <? 2 ^ 23) = (o_adr (run s inp t) / 2 ^ 23 =? 0).
Proof.
  pose proof (adr_range t) as H. destruct (Z.ltb_spec (o_adr (run s inp t)) (2 ^ 23)) as [L|L]; symmetry; [apply Z.eqb_eq, Z.div_small; lia|apply Z.eqb_neq].
  intros E. apply Z.div_small_iff in E; lia.
Qed.
Lemma ram_mem_after t z : ram_mem ram phys s inp m0 t z = ram_after k (run s inp) (fun u => ack (inp u)) m0 t z.
Proof. induction t as [|t IH]; [reflexivity|]. cbn [ram_mem ram_after]. cbv zeta beta. rewrite below, IH. reflexivity. Qed.
Lemma soc_ram_slave : ram_slave ram phys s inp m0.
Proof.
  intros t x C A We Rm i Hi. apply Z.ltb_lt in Rm. rewrite ram_mem_after. apply C44_soc_memory; try assumption. split; [apply adr_range|exact Rm].
Qed.
(** The memory array in a cycle already has the store acknowledged in it. *)
Lemma array t z : byte (wm_mem (so_mem (soc_run k D x0 p t)) (z / 4)) (z mod 4) = ram_mem ram phys s inp m0 (S t) z.
Proof.
  set (b := soc_bus k D x0 p RAM).
  assert (Em : forall u, so_mem (soc_run k D x0 p u) = mem_run k (so_mem x0) b u) by (intros u; apply soc_mem).
  assert (Hh : holds_requests b (fun u => wm_ack (mem_run k (so_mem x0) b u))).
  { intros u R N. apply (soc_held k D x0 p Hs Hp RAM u R). cbn [so_ackr]. rewrite Em. assumption. }
  destruct (minv_all k (so_mem x0) b (ms_ack _ (st_mem _ Hs)) Hh t) as [I1 I2].
  assert (Eb : forall u, b u = sub_bus RAM (cpu_bus (run s inp u))) by reflexivity.
  assert (Hz : 0 <= z mod 4 < 4) by (apply Z.mod_pos_bound; lia).
  assert (Eq : forall t, p_req (b t) && wm_ack (mem_run k (so_mem x0) b t) = o_cyc (run s inp t) && ack (inp t) && (o_adr (run s inp t) <? 2 ^ 23)).
  { clear t I1 I2. intros t. rewrite Eb. unfold p_req. cbn [sub_bus cpu_bus b_stb b_cyc b_adr]. rewrite C10_stb_is_cyc. destruct (o_cyc (run s inp t)) eqn:C; [|reflexivity]. cbn [andb].
    rewrite (ack_is k D x0 p t). unfold in_region. unfold ackr. rewrite <- Em. change (wm_ack (so_mem (soc_run k D x0 p t))) with (so_ackr (soc_run k D x0 p t) RAM).
    rewrite below. assert (Rr : region_of (o_adr (run s inp t)) = Some RAM <-> o_adr (run s inp t) / 2 ^ 23 = 0).
    { unfold region_of. destruct (Z.eqb_spec (o_adr (run s inp t) / 2 ^ 23) 0); [tauto|]. destruct (_ =? _); [split; [discriminate|contradiction]|]. destruct (_ =? _); [split; [discriminate|contradiction]|]. destruct (_ =? _); split; (discriminate || contradiction). }
    destruct (Z.eqb_spec (o_adr (run s inp t) / 2 ^ 23) 0) as [Ez|Nz].
    - apply Rr in Ez. rewrite Ez. cbn [region_eqb]. rewrite andb_true_r. reflexivity.
    - rewrite andb_false_r. destruct (region_of _) as [[]|]; try reflexivity. exfalso. apply Nz, Rr. reflexivity. }
  assert (Wr : forall t, b_we (b t) && (z / 4 =? b_adr (b t) mod 2 ^ k) && Z.testbit (b_sel (b t)) (z mod 4) = o_we (run s inp t) && (z / 4 =? (o_adr (run s inp t) mod 2 ^ 23) mod 2 ^ k) && Z.testbit (o_sel (run s inp t)) (z mod 4)).
  { intros u. rewrite Eb. cbn [sub_bus cpu_bus b_we b_adr b_sel adr_width lanes_of]. rewrite Z.mod_pow2_bits_low by lia. reflexivity. }
  assert (Dt : forall t, byte (b_dat_w (b t)) (z mod 4) = byte (o_dat_w (run s inp t)) (z mod 4)).
  { intros u. rewrite Eb. cbn [sub_bus cpu_bus b_dat_w lanes_of]. apply mod_lane. exact Hz. }
  assert (One : forall t f, (if p_req (b t) && wm_ack (mem_run k (so_mem x0) b t) && b_we (b t) && (z / 4 =? b_adr (b t) mod 2 ^ k) && Z.testbit (b_sel (b t)) (z mod 4) then byte (b_dat_w (b t)) (z mod 4) else f)
     = if o_cyc (run s inp t) && ack (inp t) && o_we (run s inp t) && (o_adr (run s inp t) <? 2 ^ 23) && (z / 4 =? o_adr (run s inp t) mod 2 ^ k) && Z.testbit (o_sel (run s inp t)) (z mod 4) then byte (o_dat_w (run s inp t)) (z mod 4) else f).
  { intros u f. rewrite <- !andb_assoc. rewrite (andb_assoc (p_req _)), (andb_assoc (o_cyc _)), Eq. specialize (Wr u). rewrite <- !andb_assoc in Wr. rewrite Wr, Dt.
    destruct (o_cyc (run s inp u) && ack (inp u)); cbn [andb]; [|reflexivity]. destruct (Z.ltb_spec (o_adr (run s inp u)) (2 ^ 23)) as [L|L]; [|rewrite andb_false_r; reflexivity]. rewrite andb_true_l.
    rewrite (Z.mod_small (o_adr (run s inp u)) (2 ^ 23)) by (pose proof (adr_range u); lia). cbn [andb]. reflexivity. }
  assert (Sp : forall t, bytes_after k b (fun u => wm_ack (mem_run k (so_mem x0) b u)) m0 t z = ram_mem ram phys s inp m0 t z).
  { clear t I1 I2. induction t as [|t IH]; [reflexivity|]. cbn [bytes_after ram_mem]. cbv zeta beta. rewrite IH. apply One. }
  rewrite Em. rewrite I2. cbn [ram_mem]. cbv zeta beta. rewrite <- One. rewrite <- (Sp t). destruct (wm_ack (mem_run k (so_mem x0) b t)) eqn:Ak.
  - destruct (I1 eq_refl) as [R _]. rewrite R. cbn [andb]. reflexivity.
  - rewrite andb_false_r. reflexivity.
Qed.
End S.

(** ** The SoC under resets *)
(** One cycle with the reset [r] of the clock domain (attosoc.py:833-919): the core, LEDs, timer and serial port go to their reset values; the memory has
    no reset except for its ACK ([wbmem_rstep], Crash.v). *)
Definition soc_rstep (k D : Z) (r : bool) (x : soc) (p : pins) : soc :=
  let b := cpu_bus (so_cpu x) in let n := soc_step k D x p in
  {| so_cpu := step (so_cpu x) {| rst := r; ack := ack (so_inp x); dat_r := dat_r (so_inp x); irq := irq (so_inp x) |};
     so_mem := wbmem_rstep k r (so_mem x) (sub_bus RAM b);
     so_leds := if r then leds_init else so_leds n;
     so_timer := if r then timer_init else so_timer n;
     so_serial := if r then serial_init else so_serial n |}.
(** Cycle after cycle, with the reset waveform [rw]. *)
Fixpoint soc_rrun (k D : Z) (rw : nat -> bool) (x : soc) (p : nat -> pins) (t : nat) : soc :=
  match t with O => x | S n => soc_rstep k D (rw n) (soc_rrun k D rw x p n) (p n) end.
(** The bytes of the RAM. *)
Definition soc_bytes (x : soc) (z : Z) : Z := byte (wm_mem (so_mem x) (z / 4)) (z mod 4).
(** [m'] is what [m] can become when the machine boots [r + 1] times in a row, each time running some number of complete instructions (perhaps none) from address 0. *)
Inductive io_lives (ram : Z -> bool) (phys : Z -> Z) (m : Z -> Z) : nat -> (Z -> Z) -> Prop :=
| io_first a ev n m' : booted a -> (forall z, m' z = snd (io_run ram phys ev n (a, m)) z) -> io_lives ram phys m O m'
| io_next r m1 a ev n m' : io_lives ram phys m r m1 -> booted a -> (forall z, m' z = snd (io_run ram phys ev n (a, m1)) z) -> io_lives ram phys m (S r) m'.

Lemma soc_rstep_quiet k D x p : soc_rstep k D false x p = soc_step k D x p.
Proof.
  unfold soc_rstep, soc_step, wbmem_rstep. rewrite andb_true_r.
  replace {| rst := false; ack := ack (so_inp x); dat_r := dat_r (so_inp x); irq := irq (so_inp x) |} with (so_inp x) by reflexivity. f_equal.
Qed.
Lemma soc_quiet k D rw x p T n : (forall u, (u < n)%nat -> rw (T + u)%nat = false) ->
  soc_rrun k D rw x p (T + n) = soc_run k D (soc_rrun k D rw x p T) (fun u => p (T + u)%nat) n.
Proof.
  induction n as [|n IH]; intros H; [rewrite Nat.add_0_r; reflexivity|]. rewrite Nat.add_succ_r. cbn [soc_rrun soc_run]. rewrite IH by (intros; apply H; lia). rewrite H by lia. apply soc_rstep_quiet.
Qed.
Lemma soc_run_cpu k D x p t : so_cpu (soc_run k D x p t) = run (so_cpu x) (soc_inp k D x p) t.
Proof. apply soc_cpu. Qed.

Section R.
Variables (k D : Z) (rw : nat -> bool) (x0 : soc) (p : nat -> pins).
Hypothesis (Hs : soc_start x0) (Hp : pins_ok p).
Local Notation sr := (soc_rrun k D rw x0 p).
Local Notation ram := (fun a => a <? 2 ^ 23).
Local Notation phys := (fun a => a mod 2 ^ k).
Lemma soc_words t : (forall a, word (wm_mem (so_mem (sr t)) a)) /\ word (wm_rdata (so_mem (sr t))).
Proof.
  induction t as [|t [I1 I2]]; [split; apply Hs|]. cbn [soc_rrun soc_rstep so_mem wbmem_rstep wbmem_step wm_mem wm_rdata]. split.
  - intros a. destruct (_ && _); [|apply I1]. destruct (_ =? _); [apply merge_word|apply I1].
  - destruct (_ && _); [apply I1|assumption].
Qed.
Lemma shifted_pins T : pins_ok (fun u => p (T + u)%nat).
Proof. intros u. apply Hp. Qed.
(** The memory in a cycle of one life is that of the machine after some number of instructions. *)
Lemma one_life x q : soc_start x -> pins_ok q -> forall t, exists ev n, (fetched_before (so_cpu x) (soc_inp k D x q) (S t) = n \/ fetched_before (so_cpu x) (soc_inp k D x q) (S t) = S n) /\
  happened (so_cpu x) (soc_inp k D x q) ev (S t) /\ forall z, soc_bytes (soc_run k D x q t) z = snd (io_run ram phys ev n (boot_arch (so_cpu x), soc_bytes x)) z.
Proof.
  intros Sx Sq t. destruct (io_tracks_all ram phys _ _ _ (soc_ok k D x q Sx Sq) (soc_ram_slave k D x q Sx Sq) (S t)) as (ev & Hh & Tr). unfold io_tracks in Tr.
  destruct (machine _ _ (S t)) as [a|r k0].
  - exists ev, (fetched_before (so_cpu x) (soc_inp k D x q) (S t)). split; [auto|]. split; [exact Hh|]. intros z. unfold soc_bytes at 1. rewrite (array k D x q Sx Sq). symmetry. apply Tr.
  - destruct Tr as (n & En & _ & Hm & _). exists ev, n. split; [auto|]. split; [exact Hh|]. intros z. unfold soc_bytes at 1. rewrite (array k D x q Sx Sq). symmetry. apply Hm.
Qed.
Lemma next_array x q t : wm_mem (so_mem (soc_rstep k D true (soc_run k D x q t) (q t))) = wm_mem (so_mem (soc_run k D x q (S t))).
Proof. reflexivity. Qed.
Lemma reset_starts T : rw T = true -> (exists U n, T = (U + n)%nat /\ (forall u, (u < n)%nat -> rw (U + u)%nat = false) /\ soc_start (sr U)) -> soc_start (sr (S T)).
Proof.
  intros R (U & n & E & H & St). destruct (soc_words (S T)) as [W1 W2]. constructor; try (cbn [soc_rrun soc_rstep so_leds so_timer so_serial]; rewrite R; reflexivity).
  - subst T. cbn [soc_rrun soc_rstep so_cpu]. rewrite R, (soc_quiet k D rw x0 p U n H). apply step_reset_fresh; [| |reflexivity].
    + rewrite soc_run_cpu. destruct (st_cpu _ St) as (? & ? & ? & _ & W). apply run_wf; [exact W|]. intros u. apply (soc_ok k D _ _ St (shifted_pins U)).
    + cbn [dat_r]. apply (soc_ok k D _ _ St (shifted_pins U)).
  - constructor; [exact W1|exact W2|]. cbn [soc_rrun soc_rstep so_mem wbmem_rstep wm_ack]. rewrite R. apply andb_false_r.
Qed.
(** Since the last reset. *)
Lemma soc_since t : exists T n, t = (T + n)%nat /\ (forall u, (u < n)%nat -> rw (T + u)%nat = false) /\ soc_start (sr T) /\
  ((T = O /\ resets rw t = O) \/ exists r, io_lives ram phys (soc_bytes x0) r (soc_bytes (sr T)) /\ resets rw t = S r).
Proof.
  induction t as [|t (T & n & -> & H & St & Q)].
  - exists O, O. split; [reflexivity|]. split; [intros; lia|]. split; [exact Hs|]. left. split; reflexivity.
  - unfold resets. rewrite count_S. fold (resets rw (T + n)). destruct (rw (T + n)%nat) eqn:R.
    + exists (S (T + n)), O. split; [lia|]. split; [intros; lia|]. split; [apply reset_starts; [exact R|exists T, n; auto]|].
      right. assert (L : exists a ev j, booted a /\ forall z, soc_bytes (sr (S (T + n))) z = snd (io_run ram phys ev j (a, soc_bytes (sr T))) z).
      { destruct (one_life (sr T) _ St (shifted_pins T) (S n)) as (ev & j & _ & _ & E). exists (boot_arch (so_cpu (sr T))), ev, j. split; [repeat split|]. intros z. rewrite <- E.
        unfold soc_bytes. cbn [soc_rrun]. rewrite R, (soc_quiet k D rw x0 p T n H). reflexivity. }
      destruct L as (a & ev & j & Ba & Hz). destruct Q as [(-> & Q)|(r & Lr & Q)]; rewrite Q.
      * exists O. split; [|reflexivity]. eapply io_first; eauto.
      * exists (S r). split; [|lia]. eapply io_next; eauto.
    + exists T, (S n). split; [lia|]. split. { intros u Hu. destruct (Nat.eq_dec u n) as [->|]; [exact R|apply H; lia]. }
      split; [exact St|]. rewrite Nat.add_0_r. exact Q.
Qed.
End R.

(** ** Theorems *)
(** C82: in every cycle in which AttoSoC's core completes an instruction fetch, whatever the program and the pins do, RAM and registers are those of the RV32I
    machine with RAM and devices after the instructions fetched before, given what the devices, the interrupt line and fetches from outside the RAM have delivered; and if the
    instruction is in RAM (word addresses below [2 ^ 23], mirrored every [2 ^ k]), it is the word the machine has there. *)
Theorem C82_soc_programs : forall k D x0 p, soc_start x0 -> pins_ok p ->
  let s := so_cpu x0 in let inp := soc_inp k D x0 p in
  forall t w, fetch_done s inp t w ->
  exists ev, happened s inp ev t /\
  let (a, m) := io_run (fun a => a <? 2 ^ 23) (fun a => a mod 2 ^ k) ev (fetched_before s inp t) (boot_arch s, soc_bytes x0) in
  (pc a / 4 < 2 ^ 23 -> w = peek (fun a => a mod 2 ^ k) m (pc a) 4) /\ (forall z, m z = soc_bytes (soc_run k D x0 p t) z) /\
  let x := so_cpu (soc_run k D x0 p (S t)) in
  (forall r, 0 <= r < 32 -> x_of x r = rd_x a r) /\ pc_of x = pc a /\
  mie_of x = mie a /\ mpie_of x = mpie a /\ meie_of x = meie a /\
  mtvec_of x = mtvec a /\ mscratch_of x = mscratch a /\ mepc_of x = mepc a /\ mcause_of x = mcause a.
Proof.
  intros k D x0 p Hs Hp s inp t w F. pose proof (soc_ok k D x0 p Hs Hp) as K.
  destruct (io_tracks_all (fun a => a <? 2 ^ 23) (fun a => a mod 2 ^ k) s inp (soc_bytes x0) K (soc_ram_slave k D x0 p Hs Hp) t) as (ev & Hh & Tr). exists ev. split; [exact Hh|].
  destruct (C02_registers_match_reference s inp K t w F) as (a & M & R). unfold io_tracks in Tr. rewrite M in Tr.
  destruct (io_run _ _ _ _ _) as [a' m]. cbn [fst snd] in Tr. destruct Tr as [-> Hm]. destruct F as (C & U & A & Dw). split; [|split].
  - intros L. rewrite <- Dw. rewrite (code_word _ _ s inp _ K (soc_ram_slave k D x0 p Hs Hp) t a m C A M Hm) at 1. rewrite (proj2 (Z.ltb_lt _ _) L). reflexivity.
  - intros z. unfold soc_bytes. rewrite (array k D x0 p Hs Hp), Hm. cbn [ram_mem]. cbv zeta. fold s inp.
    pose proof (bus_shows s inp K t C) as Sh. rewrite M in Sh. destruct Sh. rewrite sh_we. cbn [request q_we]. rewrite andb_false_r. reflexivity.
  - cbv zeta. rewrite soc_run_cpu. exact R.
Qed.
(** C83, one boot: in every cycle the RAM holds what the machine's holds after all the instructions fetched so far, or after all but the last one. *)
Theorem C83_every_cycle : forall k D x0 p, soc_start x0 -> pins_ok p ->
  let s := so_cpu x0 in let inp := soc_inp k D x0 p in
  forall t, exists ev n, (fetched_before s inp (S t) = n \/ fetched_before s inp (S t) = S n) /\ happened s inp ev (S t) /\
  forall z, soc_bytes (soc_run k D x0 p t) z = snd (io_run (fun a => a <? 2 ^ 23) (fun a => a mod 2 ^ k) ev n (boot_arch s, soc_bytes x0)) z.
Proof. intros k D x0 p Hs Hp s inp t. exact (one_life k D x0 p Hs Hp t). Qed.
(** C83: a reset in any cycle starts the SoC afresh (so every theorem about the SoC after a reset holds again), with the RAM as it was: a store whose request
    is on the bus in that cycle is still carried out, and nothing else changes. *)
Theorem C83_restart : forall k D rw x0 p, soc_start x0 -> pins_ok p ->
  forall T, rw T = true -> let x := soc_rrun k D rw x0 p (S T) in
  soc_start x /\ (forall n, (forall u, (u < n)%nat -> rw (S T + u)%nat = false) -> soc_rrun k D rw x0 p (S T + n) = soc_run k D x (fun u => p (S T + u)%nat) n) /\
  let b := so_cpu (soc_rrun k D rw x0 p T) in
  forall z, soc_bytes x z = if o_cyc b && o_we b && (o_adr b <? 2 ^ 23) && (z / 4 =? o_adr b mod 2 ^ k) && Z.testbit (o_sel b) (z mod 4) then byte (o_dat_w b) (z mod 4) else soc_bytes (soc_rrun k D rw x0 p T) z.
Proof.
  intros k D rw x0 p Hs Hp T R x. destruct (soc_since k D rw x0 p Hs Hp T) as (U & n & E & H & St & _). split; [|split].
  - apply reset_starts; [assumption|assumption|exact R|exists U, n; auto].
  - intros n' H'. apply soc_quiet. exact H'.
  - intros b z. unfold x, soc_bytes. cbn [soc_rrun soc_rstep so_mem wbmem_rstep wbmem_step wm_mem]. fold b. cbn [sub_bus cpu_bus b_stb b_cyc b_we b_adr b_sel b_dat_w adr_width lanes_of].
    rewrite C10_stb_is_cyc. set (m := wm_mem (so_mem (soc_rrun k D rw x0 p T))).
    assert (Ha : 0 <= o_adr b). { unfold b. rewrite E, (soc_quiet k D rw x0 p U n H), soc_run_cpu. apply adr_range; [exact St|intros u; apply Hp]. }
    assert (Rg : in_region RAM (o_adr b) = (o_adr b <? 2 ^ 23)).
    { unfold in_region, region_of. destruct (Z.ltb_spec (o_adr b) (2 ^ 23)) as [L|L]; [rewrite Z.div_small by lia; reflexivity|].
      assert (N : o_adr b / 2 ^ 23 <> 0) by (intros N; apply Z.div_small_iff in N; lia). rewrite (proj2 (Z.eqb_neq _ _) N). repeat (destruct (_ =? _); [reflexivity|]). reflexivity. }
    rewrite Rg. destruct (o_cyc b); [|reflexivity]. cbn [andb]. destruct (Z.ltb_spec (o_adr b) (2 ^ 23)) as [L|L]; [|rewrite !andb_false_r; reflexivity].
    rewrite (Z.mod_small (o_adr b)) by lia. rewrite andb_true_r. destruct (o_we b); [|reflexivity]. cbn [andb]. destruct (z / 4 =? _); [|reflexivity]. cbn [andb].
    assert (Hz : 0 <= z mod 4 < 4) by (apply Z.mod_pos_bound; lia). rewrite merge_byte by exact Hz. rewrite Z.mod_pow2_bits_low by lia. rewrite mod_lane by exact Hz. reflexivity.
Qed.
(** C83: whenever and however often the SoC is reset, its RAM holds in any cycle what the machine with RAM and devices can make of it by booting once
    more than there were resets, each time running some number of complete instructions from address 0 with interrupts disabled. *)
Theorem C83_resets : forall k D rw x0 p, soc_start x0 -> pins_ok p -> forall t,
  io_lives (fun a => a <? 2 ^ 23) (fun a => a mod 2 ^ k) (soc_bytes x0) (resets rw t) (soc_bytes (soc_rrun k D rw x0 p t)).
Proof.
  intros k D rw x0 p Hs Hp t. destruct (soc_since k D rw x0 p Hs Hp t) as (T & n & -> & H & St & Q).
  assert (L : exists a ev j, booted a /\ forall z, soc_bytes (soc_rrun k D rw x0 p (T + n)) z = snd (io_run (fun a => a <? 2 ^ 23) (fun a => a mod 2 ^ k) ev j (a, soc_bytes (soc_rrun k D rw x0 p T))) z).
  { rewrite (soc_quiet k D rw x0 p T n H). destruct (one_life k D (soc_rrun k D rw x0 p T) (fun u => p (T + u)%nat) St (fun u => Hp (T + u)%nat) n) as (ev & j & _ & _ & E). exists (boot_arch (so_cpu (soc_rrun k D rw x0 p T))), ev, j. split; [repeat split|exact E]. }
  destruct L as (a & ev & j & Ba & E). destruct Q as [(-> & Q)|(r & Lr & Q)]; rewrite Q.
  - eapply io_first; [exact Ba|exact E].
  - eapply io_next; [exact Lr|exact Ba|exact E].
Qed.

(** ** The commit program on the SoC *)
(** Inside the RAM the machine with devices is the flat machine. *)
Lemma io_flat ram phys a m e : ram (pc a / 4) = true ->
  (match decode (peek phys m (pc a) 4) with Some (Load _ _ _ rs1 off) | Some (Store _ rs1 _ off) => ram ((rd_x a rs1 + off) mod 2 ^ 32 / 4) = true | _ => True end) ->
  io_step ram phys (a, m) e = flat_step phys (a, m) (e_int e 1%nat) (e_int e 2%nat) (e_int e 3%nat).
Proof.
  intros R H. unfold io_step, flat_step. rewrite R. destruct (int_enabled a && _); [reflexivity|]. destruct (decode _) as [i|]; [|reflexivity].
  destruct (is_csr i && _); [reflexivity|]. destruct i; try reflexivity; cbv zeta; rewrite H; reflexivity.
Qed.
Lemma io_stage j a m e : 0 <= j < 6 -> stage j a m -> exists j', 0 <= j' < 6 /\ stage j' (fst (io_step (fun a => a <? 2 ^ 23) (fun a => a mod 2 ^ 8) (a, m) e)) (snd (io_step (fun a => a <? 2 ^ 23) (fun a => a mod 2 ^ 8) (a, m) e)).
Proof.
  intros Hj St. rewrite io_flat; [apply (stage_step j); assumption| |].
  - rewrite (st_pc _ _ _ St). apply Z.ltb_lt. rewrite Z.mul_comm, Z.div_mul by lia. lia.
  - rewrite (st_pc _ _ _ St), (fetch_word m j (nth (Z.to_nat j) commit 0) (proj1 (st_safe _ _ _ St)) Hj eq_refl).
    assert (J : j = 0 \/ j = 1 \/ j = 2 \/ j = 3 \/ j = 4 \/ j = 5) by lia. decompose [or] J; subst j; try exact I.
    + change (decode (nth (Z.to_nat 2) commit 0)) with (Some (Store Word 18 9 0)). cbv iota beta. rewrite (st_s2 _ _ _ St) by lia. reflexivity.
    + change (decode (nth (Z.to_nat 4) commit 0)) with (Some (Store Word 18 19 4)). cbv iota beta. rewrite (st_s2 _ _ _ St) by lia. reflexivity.
Qed.
Lemma io_stages ev n a m : booted a -> safe m -> exists j, 0 <= j < 6 /\
  stage j (fst (io_run (fun a => a <? 2 ^ 23) (fun a => a mod 2 ^ 8) ev n (a, m))) (snd (io_run (fun a => a <? 2 ^ 23) (fun a => a mod 2 ^ 8) ev n (a, m))).
Proof.
  intros B Hs. induction n as [|n (j & Hj & St)].
  - destruct B as (B1 & B2 & _). exists 0. split; [lia|]. constructor; cbn [io_run fst snd]; try lia; auto.
  - cbn [io_run]. destruct (io_run _ _ ev n (a, m)) as [a' m']. apply (io_stage j); assumption.
Qed.
Lemma io_safe r m m' : io_lives (fun a => a <? 2 ^ 23) (fun a => a mod 2 ^ 8) m r m' -> safe m -> safe m'.
Proof.
  intros L Hs. induction L as [a ev n m' B E|r m1 a ev n m' L IH B E].
  - destruct (io_stages ev n a m B Hs) as (j & _ & St). apply (safe_ext _ _ E). apply St.
  - destruct (io_stages ev n a m1 B IH) as (j & _ & St). apply (safe_ext _ _ E). apply St.
Qed.
(** C83, an application: the commit program of C80 on the whole SoC (a RAM of 256 words), with the timer running and anything on the pins. *)
Theorem C83_commit : forall D rw x0 p, soc_start x0 -> pins_ok p -> (forall j, (j < 6)%nat -> wm_mem (so_mem x0) (Z.of_nat j) = nth j commit 0) -> wm_mem (so_mem x0) 17 = 0 ->
  forall t, let w := wm_mem (so_mem (soc_rrun 8 D rw x0 p t)) in w 17 = 0 \/ w 17 = 1 /\ w 16 = 42.
Proof.
  intros D rw x0 p Hs Hp Hc H0 t w. destruct (soc_words 8 D rw x0 p Hs t) as [W _]. fold w in W.
  assert (S : safe (soc_bytes (soc_rrun 8 D rw x0 p t))).
  { apply (io_safe _ _ _ (C83_resets 8 D rw x0 p Hs Hp t)). unfold soc_bytes. split.
    - intros z Hz. rewrite <- (Z2Nat.id (z / 4)) at 1 by (Z.to_euclidean_division_equations; lia). rewrite Hc; [reflexivity|]. apply Nat2Z.inj_lt. rewrite Z2Nat.id by (Z.to_euclidean_division_equations; lia). Z.to_euclidean_division_equations; lia.
    - left. intros i Hi. replace ((68 + i) / 4) with 17 by (Z.to_euclidean_division_equations; lia). rewrite H0. f_equal. Z.to_euclidean_division_equations; lia. }
  unfold soc_bytes in S. fold w in S.
  assert (B : forall j v, 0 <= v < 256 -> word_in (fun z => byte (w (z / 4)) (z mod 4)) (4 * j) v -> w j = v).
  { intros j v Hv H. apply bytes_in; [exact W|unfold word; lia|exact H]. }
  destruct S as [_ [F|[F Dt]]]; [left|right; split]; apply B; try lia; assumption.
Qed.
(** From power-on, with a reset between the stores and one after them: data, then flag, then the LED, which a reset clears while the RAM keeps its contents.  The program is the commit program
    with the last instruction replaced: lui s4,0x2000 puts the LED address in s4, sb s1,0(s4) lights the LEDs, j . *)
Definition soc_of (l : list Z) : soc := {| so_cpu := por; so_mem := commit_mem l; so_leds := leds_init; so_timer := timer_init; so_serial := serial_init |}.
Definition still : nat -> pins := fun _ => {| pi_gpio := 0; pi_rx := true |}.
Example C83_applies : soc_start (soc_of commit) /\ pins_ok still /\
  (let x := fun t => soc_rrun 8 104 (fun t => Nat.eqb t 31 || Nat.eqb t 95) (soc_of [0x02a00493; 0x04000913; 0x00992023; 0x00100993; 0x01392223; 0x02000a37; 0x009a0023; 0x0000006f]) still t in
   map (fun t => let y := x t in (wm_mem (so_mem y) 16, wm_mem (so_mem y) 17, ld_leds (so_leds y))) [10; 30; 32; 94; 96; 160]%nat = [(0, 0, 0); (42, 0, 0); (42, 0, 0); (42, 1, 42); (42, 1, 0); (42, 1, 42)]).
Proof.
  split; [|split; [intros t; cbn; lia|vm_compute; reflexivity]].
  constructor; try reflexivity; [apply por_fresh|]. constructor; [|unfold word; cbn; lia|reflexivity]. intros a. cbn [soc_of so_mem commit_mem wm_mem]. unfold word.
  destruct (Nat.le_gt_cases 6 (Z.to_nat a)) as [L|L]; [rewrite nth_overflow by exact L; lia|].
  assert (In (nth (Z.to_nat a) commit 0) commit) as I by (apply nth_In; exact L). set (v := nth (Z.to_nat a) commit 0) in *. clearbody v. cbn in I. decompose [or] I; subst; try tauto; lia.
Qed.

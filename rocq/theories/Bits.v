(** * Bit-vector helpers: machine words are [Z] with the range made explicit. *)
From Coq Require Import ZArith Bool.
Open Scope Z_scope.

(** [x[lo : lo+n]] of an Amaranth value (unsigned slice). *)
Definition bits (x lo n : Z) : Z := (x / 2 ^ lo) mod 2 ^ n.
(** Single bit [x[i]] as a boolean. *)
Definition bitb (x i : Z) : bool := bits x i 1 =? 1.
(** Truncation to 32 bits. *)
Definition w32 (x : Z) : Z := x mod 2 ^ 32.
(** Boolean as a 1-bit value. *)
Definition b2z (b : bool) : Z := if b then 1 else 0.
(** Two's-complement reading of an [n]-bit value ([Value.as_signed]). *)
Definition signed (n x : Z) : Z := if x <? 2 ^ (n - 1) then x else x - 2 ^ n.
(** [Value.replicate(b, n)]. *)
Definition rep (b : bool) (n : Z) : Z := if b then 2 ^ n - 1 else 0.
(** Function update, used for memories. *)
Definition upd (m : Z -> Z) (a v : Z) : Z -> Z := fun x => if x =? a then v else m x.

(* What the bar chart should show. *)
From Coq Require Import List Arith Reals.
From Verif Require Import SpecKin SpecPart.
Import ListNotations.

Section Chart.
Context (ns nc : nat) (y molw : list R) (NA : R).
Open Scope R_scope.
(* Mass of component j in bin b in micrograms per m3, a negative one as 0. *)
Definition shown_mass (b j : nat) : R := Rmax 0 (nth (slot ns nc b j) y 0 / NA * nth j molw 0 * 1e12).
(* Without the last component, which is water. *)
Definition bin_mass (b : nat) : R := rsum (map (shown_mass b) (seq 0 (nc - 1))).
Definition share (b j : nat) : R := shown_mass b j / bin_mass b.
End Chart.

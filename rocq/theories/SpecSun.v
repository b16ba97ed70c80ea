(* What the photolysis part of the rate modules is meant to compute: the MCM
   parameterisation J = L cos(x)^M exp(-N sec(x)) at the solar zenith angle x
   of day 150 (30 May), latitude 51.51, longitude 0.13. *)
From Coq Require Import List QArith Reals Qreals.
Import ListNotations.

(* number, L, M, N *)
Definition row (k : nat) (l m n : Q) : nat * (Q * Q * Q) := (k, (l, m, n)).
Definition mcm_table : list (nat * (Q * Q * Q)) := [
  row 1 6.073e-5 1.743 0.474; row 2 4.775e-4 0.298 0.080; row 3 1.041e-5 0.723 0.279;
  row 4 1.165e-2 0.244 0.267; row 5 2.485e-2 0.168 0.108; row 6 1.747e-1 0.155 0.125;
  row 7 2.644e-3 0.261 0.288; row 8 9.312e-7 1.230 0.307; row 11 4.642e-5 0.762 0.353;
  row 12 6.853e-5 0.477 0.323; row 13 7.344e-6 1.202 0.417; row 14 2.879e-5 1.067 0.358;
  row 15 2.792e-5 0.805 0.338; row 16 1.675e-5 0.805 0.338; row 17 7.914e-5 0.764 0.364;
  row 18 1.482e-6 0.396 0.298; row 19 1.482e-5 0.396 0.298; row 20 7.600e-4 0.396 0.298;
  row 21 7.992e-7 1.578 0.271; row 22 5.804e-6 1.092 0.377; row 23 2.4246e-6 0.395 0.296;
  row 24 2.424e-6 0.395 0.296; row 31 6.845e-5 0.130 0.201; row 32 1.032e-5 0.130 0.201;
  row 33 3.802e-5 0.644 0.312; row 34 1.537e-4 0.170 0.208; row 35 3.326e-4 0.148 0.215;
  row 41 7.649e-6 0.682 0.279; row 51 1.588e-6 1.154 0.318; row 52 1.907e-6 1.244 0.335;
  row 53 2.485e-6 1.196 0.328; row 54 4.095e-6 1.111 0.316; row 55 1.135e-5 0.974 0.309;
  row 56 4.365e-5 1.089 0.323; row 57 3.363e-6 1.296 0.322; row 61 7.537e-4 0.499 0.266].

Open Scope R_scope.
(* Spencer's series for the declination and the equation of time. *)
Definition day_angle : R := 2 * PI * 149 / 365.
Definition declination : R :=
  6918/1000000 - 399912/1000000 * cos day_angle + 70257/1000000 * sin day_angle
  - 6758/1000000 * cos (2 * day_angle) + 907/1000000 * sin (2 * day_angle)
  - 2697/1000000 * cos (3 * day_angle) + 1480/1000000 * sin (3 * day_angle).
Definition equation_of_time : R :=
  75/1000000 + 1868/1000000 * cos day_angle - 32077/1000000 * sin day_angle
  - 14615/1000000 * cos (2 * day_angle) - 40849/1000000 * sin (2 * day_angle).
(* Hours since midnight, for a time in seconds since the start of day 150. *)
Definition hour_of_day (t : R) : R := 24 * frac_part (149 + t / 86400).
Definition hour_angle (t : R) : R :=
  PI * (hour_of_day t / 12 - (1 + 13/100 / 180)) + equation_of_time.
Definition latitude : R := 5151/100 * PI / 180.
(* Cosine of the zenith angle: positive exactly when the sun is up. *)
Definition cos_zenith (t : R) : R :=
  sin latitude * sin declination + cos latitude * cos declination * cos (hour_angle t).
(* The rate at that zenith angle; the sun counts as down up to 1e-30. *)
Definition photolysis (lmn : Q * Q * Q) (c : R) : R :=
  let '(l, m, n) := lmn in
  if Rle_dec c (1 / 10 ^ 30) then 0 else Q2R l * Rpower c (Q2R m) * exp (- (Q2R n / c)).

(* The MCM rate constants that depend on pressure (Troe fall-off form) and the
   simple ones, as functions of the temperature. *)
From Coq Require Import List String QArith Reals Qreals.
Import ListNotations.
Open Scope R_scope.

Definition log10 (x : R) : R := ln x / ln 10.
(* k0 and ki combined with broadening factor fc. *)
Definition troe (k0 ki fc : R) : R :=
  k0 * ki / (k0 + ki) *
  Rpower 10 (log10 fc / (1 + (log10 (k0 / ki) / (0.75 - 1.27 * log10 fc)) ^ 2)).

Definition air : R := Q2R 2.55e19.
Definition oxygen : R := Q2R 0.2095 * air.
Definition power (a n : Q) (T : R) : R := Q2R a * Rpower (T / 300) (Q2R n).
Definition arrh (a b : Q) (T : R) : R := Q2R a * exp (Q2R b / T).
Definition const (a : Q) (T : R) : R := Q2R a.
Definition per_air (f : R -> R) (T : R) : R := air * f T.

(* name, low pressure limit, high pressure limit, broadening factor *)
Definition entry : Type := string * (R -> R) * (R -> R) * (R -> R).
Definition fall_off (x : string) (k0 ki fc : R -> R) : entry := (x, k0, ki, fc).
Definition troe_table : list entry := [
  fall_off "KFPAN" (per_air (power 3.28e-28 (-6.87))) (power 1.125e-11 (-1.105)) (const 0.30);
  fall_off "KBPAN" (per_air (arrh 1.10e-5 (-10100))) (arrh 1.90e17 (-14100)) (const 0.30);
  fall_off "KMT01" (per_air (power 1.00e-31 (-1.6))) (power 5.0e-11 0.3) (const 0.85);
  fall_off "KMT02" (per_air (power 1.30e-31 (-1.5))) (power 2.30e-11 0.24) (const 0.6);
  fall_off "KMT03" (per_air (power 3.60e-30 (-4.1))) (power 1.90e-12 0.2) (const 0.35);
  fall_off "KMT04" (per_air (fun T => power 1.30e-3 (-3.5) T * exp (- 11000 / T)))
                   (fun T => power 9.70e14 0.1 T * exp (- 11080 / T)) (const 0.35);
  fall_off "KMT07" (per_air (power 7.40e-31 (-2.4))) (power 3.30e-11 (-0.3)) (const 0.81);
  fall_off "KMT08" (per_air (power 3.2e-30 (-4.5))) (const 3.0e-11) (const 0.41);
  fall_off "KMT09" (per_air (power 1.4e-31 (-3.1))) (const 4.0e-12) (const 0.4);
  fall_off "KMT10" (per_air (arrh 4.10e-5 (-10650))) (arrh 6.0e15 (-11170)) (const 0.4);
  fall_off "KMT12" (per_air (power 2.5e-31 (-2.6))) (const 2.0e-12) (const 0.53);
  fall_off "KMT13" (per_air (power 2.50e-30 (-5.5))) (const 1.80e-11) (const 0.36);
  fall_off "KMT14" (per_air (arrh 9.00e-5 (-9690))) (arrh 1.10e16 (-10560)) (const 0.36);
  fall_off "KMT15" (per_air (power 8.60e-29 (-3.1))) (power 9.00e-12 (-0.85)) (const 0.48);
  fall_off "KMT16" (per_air (power 8.00e-27 (-3.5))) (power 3.00e-11 (-1.0)) (const 0.5);
  fall_off "KMT17" (per_air (power 5.00e-30 (-1.5))) (const 1.00e-12)
                   (fun T => Q2R 0.17 * exp (- 51 / T) + exp (- T / 204))].

(* The other constants, as functions of temperature and water vapour. *)
Definition plain_table : list (string * (R -> R -> R)) := [
  ("M", fun _ _ => air); ("N2", fun _ _ => Q2R 0.79 * air); ("O2", fun _ _ => oxygen);
  ("KRONO2", fun T _ => arrh 2.70e-12 360 T); ("KRO2NO", fun T _ => arrh 2.7e-12 360 T);
  ("KRO2HO2", fun T _ => arrh 2.91e-13 1300 T); ("KAPHO2", fun T _ => arrh 5.2e-13 980 T);
  ("KAPNO", fun T _ => arrh 7.5e-12 290 T); ("KRO2NO3", fun T _ => Q2R 2.3e-12);
  ("KNO3AL", fun T _ => arrh 1.4e-12 (-1860) T); ("KDEC", fun T _ => Q2R 1e6);
  ("KROSEC", fun T _ => arrh 2.50e-14 (-300) T); ("KALKOXY", fun T _ => arrh 3.70e-14 (-460) T * oxygen);
  ("KALKPXY", fun T _ => arrh 1.80e-14 (-260) T * oxygen); ("KROPRIM", fun T _ => arrh 2.50e-14 (-300) T);
  ("KCH3O2", fun T _ => arrh 1.03e-13 365 T); ("K298CH3O2", fun T _ => Q2R 3.5e-13);
  ("K14ISOM1", fun T _ => arrh 3.00e7 (-5300) T);
  ("KBPPN", fun T _ => let k0 := air * arrh 1.7e-3 (-11280) T in let ki := arrh 8.3e16 (-13940) T in
     k0 * ki / (k0 + ki) * Q2R 0.36);
  ("KMT05", fun T _ => Q2R 1.44e-13 * (1 + air / Q2R 4.2e19));
  ("KMT06", fun T w => 1 + arrh 1.40e-21 2200 T * w);
  ("KMT11", fun T _ => arrh 2.40e-14 460 T +
     arrh 6.50e-34 1335 T * air / (1 + arrh 6.50e-34 1335 T * air / arrh 2.70e-17 2199 T));
  ("KMT18", fun T _ => arrh 9.5e-39 5270 T * oxygen / (1 + arrh 7.5e-29 5610 T * oxygen))]%string.

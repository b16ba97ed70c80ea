(* Model of the Fortran subroutine dydt_partition written by
   write_partitioning_section_fortran_ignore (Parse_eqn_file.py:3418-3649).

   Numbers are reals; an operation without a finite result (division by zero,
   root of a negative number) and an access outside an array give None.  The
   literal of Pi is 3.1415927 (its rounding to single precision is not
   modelled). *)
From Coq Require Import List Bool Arith Lia Permutation Reals.
From Verif Require Import Base SpecKin ModelExpr ModelRhs ModelOmp.
Import ListNotations.
Open Scope nat_scope.
Open Scope list_scope.

(* The intent(in) arguments that the routine uses (3475-3492). *)
Record inputs := Inputs {
  i_y : list R; i_ycore : list R; i_diss : R; i_core_mass : list R;
  i_density : list R; i_core_density : list R; i_mw : list R; i_psat : list R;
  i_dstar : list R; i_alpha : list R; i_cg : list R; i_nper : list R; i_gamma : list R;
  i_sigma : R; i_NA : R; i_Rgas : R; i_temp : R }.

Definition at_ (l : list R) (i : nat) : R := nth i l 0%R.

Fixpoint omap {A B} (f : A -> option B) (l : list A) : option (list B) :=
  match l with
  | [] => Some []
  | a :: l' => obind (f a) (fun b => obind (omap f l') (fun bs => Some (b :: bs)))
  end.

Definition Pi : R := (31415927 / 10000000)%R.

Section Routine.
(* num_species, num_species_condensed, num_bins and include_index, printed into
   the text (3475-3517, 3634-3636). *)
Context (ns nc nb : nat) (include : list nat) (inp : inputs).

(* f2py checks the dimensions (3475-3488; those of the
   unused Latent_heat and ignore_index are left out). *)
Definition dims_ok : bool :=
  (List.length (i_y inp) =? ns + nc * nb) &&
  forallb (fun l => List.length l =? nb) [i_ycore inp; i_core_mass inp; i_core_density inp; i_nper inp] &&
  forallb (fun l => List.length l =? nc)
    [i_density inp; i_dstar inp; i_alpha inp; i_gamma inp; i_cg inp; i_mw inp; i_psat inp].

Section Bin.
Context (b : nat).                                   (* size_step - 1 *)

(* 3551-3552 *)
Definition temp_array : list R := firstn nc (skipn (ns + b * nc) (i_y inp)).
(* 3553 *)
Definition total_moles : R := (rsum temp_array + at_ (i_ycore inp) b * i_diss inp)%R.
(* 3554 *)
Definition y_mole_fractions : option (list R) := omap (fun t => rdiv t total_moles) temp_array.
(* 3557-3558 *)
Definition mass_array : option (list R) :=
  obind (omap (fun tm => obind (rdiv (fst tm) (i_NA inp)) (fun q => Some (q * snd tm)%R)) (combine temp_array (i_mw inp)))
    (fun l => Some (l ++ [at_ (i_core_mass inp) b])).
(* 3559-3560 *)
Definition density_array : list R := i_density inp ++ [at_ (i_core_density inp) b].
(* 3565-3568 *)
Definition bin_density (mass : list R) : option R :=
  let total_mass := rsum mass in
  obind (omap (fun m => rdiv m total_mass) mass) (fun mf =>
  obind (omap (fun p => rdiv (fst p) (snd p)) (combine mf density_array)) (fun q =>
  rdiv 1 (rsum q))).
(* 3572-3574 *)
Definition bin_size (mass : list R) (density : R) : option R :=
  obind (rdiv (rsum mass * 1000) (at_ (i_nper inp) b * 1000000)) (fun q =>
  obind (rdiv (3 * q) (4 * Pi * density)) (fun v =>
  ModelExpr.rpow v (1 / 3))).
(* 3578-3589 *)
Definition correction (size : R) (j : nat) : option R :=
  obind (rdiv (at_ (i_gamma inp) j) size) (fun Kn =>
  obind (rdiv 1 Kn) (fun inv =>
  obind (rdiv (133 / 100 + 71 / 100 * inv) (1 + inv)) (fun part1 =>
  obind (rdiv (4 * (1 - at_ (i_alpha inp) j)) (3 * at_ (i_alpha inp) j)) (fun part2 =>
  rdiv 1 (1 + (part1 + part2) * Kn))))).
(* 3593-3594 *)
Definition kelvin_factor (size density : R) (j : nat) : option R :=
  obind (rdiv (4 * at_ (i_mw inp) j * / 1000 * i_sigma inp) (i_Rgas inp * i_temp inp * size * 2 * density))
    (fun q => Some (exp q)).
(* 3599, 3608 *)
Definition Cstar_i_m_t (size density : R) (fractions : list R) (j : nat) : option R :=
  obind (kelvin_factor size density j) (fun kf =>
  let Pressure_eq := (kf * at_ fractions j * at_ (i_psat inp) j * 101325)%R in
  obind (rdiv (i_NA inp) (83144598 / 10 * i_temp inp)) (fun f => Some (Pressure_eq * f)%R)).
(* 3624-3627 *)
Definition dm_dt1 (size density : R) (fractions : list R) (j : nat) : option R :=
  obind (correction size j) (fun corr =>
  obind (Cstar_i_m_t size density fractions j) (fun cstar =>
  let k := (4 * Pi * size * 100 * at_ (i_nper inp) b * (at_ (i_dstar inp) j * corr))%R in
  Some (k * (at_ (i_cg inp) j - cstar))%R)).

(* What one iteration computes before it stores: dm_dt, size, water activity
   and mass without water (3551-3627). *)
Record bin_out := BinOut { o_dm : list R; o_size : R; o_aw : R; o_soa : R }.
Definition bin_compute : option bin_out :=
  obind y_mole_fractions (fun fr =>
  obind mass_array (fun mass =>
  obind (rdiv (at_ temp_array (nc - 1)) total_moles) (fun aw =>
  obind (bin_density mass) (fun density =>
  obind (bin_size mass density) (fun size =>
  obind (omap (dm_dt1 size density fr) (seq 0 nc)) (fun dm =>
  Some (BinOut dm size aw (rsum (firstn (nc - 1) mass))))))))).
End Bin.

(* Shared memory of the parallel loop (3533-3546; index1 and index2 are in no
   PRIVATE clause, so they are shared as well).  total_water_cond_mass is not
   an output and left out. *)
Record mem := Mem {
  m_soa : nat -> R; m_aw : nat -> R; m_size : nat -> R;
  m_gas : nat -> nat -> R; m_dy : nat -> R; m_index1 : nat; m_index2 : nat }.

Inductive step :=
| WSoa (b : nat) (v : R) | WAw (b : nat) (v : R) | WSize (b : nat) (v : R)
| WGas (g b : nat) (v : R)                           (* dy_dt_gas_matrix(g,b)=v *)
| WIndex1 (n : nat) | WIndex2 (n : nat)
| WSlice (vals : list R).                            (* dy_dt(index1:index2)=vals *)

Definition upd (f : nat -> R) (k : nat) (v : R) : nat -> R := fun x => if x =? k then v else f x.

(* Indices are printed from 1; arrays here count from 0. *)
Definition run_step (s : step) (m : mem) : option mem :=
  match s with
  | WSoa b v => Some (Mem (upd (m_soa m) b v) (m_aw m) (m_size m) (m_gas m) (m_dy m) (m_index1 m) (m_index2 m))
  | WAw b v => Some (Mem (m_soa m) (upd (m_aw m) b v) (m_size m) (m_gas m) (m_dy m) (m_index1 m) (m_index2 m))
  | WSize b v => Some (Mem (m_soa m) (m_aw m) (upd (m_size m) b v) (m_gas m) (m_dy m) (m_index1 m) (m_index2 m))
  | WGas g b v =>
      match g with
      | 0 => None
      | S g' => if g' <? ns then
          Some (Mem (m_soa m) (m_aw m) (m_size m) (fun x => if x =? g' then upd (m_gas m g') b v else m_gas m x) (m_dy m) (m_index1 m) (m_index2 m))
          else None
      end
  | WIndex1 n => Some (Mem (m_soa m) (m_aw m) (m_size m) (m_gas m) (m_dy m) n (m_index2 m))
  | WIndex2 n => Some (Mem (m_soa m) (m_aw m) (m_size m) (m_gas m) (m_dy m) (m_index1 m) n)
  | WSlice vals =>
      (* the section must be inside the array and have as many elements *)
      if (1 <=? m_index1 m) && (m_index2 m <=? ns + nc * nb) && (m_index2 m + 1 - m_index1 m =? List.length vals) then
        Some (Mem (m_soa m) (m_aw m) (m_size m) (m_gas m)
                (fun x => if (m_index1 m - 1 <=? x) && (x <? m_index1 m - 1 + List.length vals)
                          then nth (x - (m_index1 m - 1)) vals 0%R else m_dy m x)
                (m_index1 m) (m_index2 m))
      else None
  end.

Fixpoint run_steps (l : list step) (m : mem) : option mem :=
  match l with [] => Some m | s :: l' => obind (run_step s m) (run_steps l') end.

(* One iteration of the loop (3547-3643), size_step = b+1. *)
Definition bin_steps (b : nat) : option (list step) :=
  obind (bin_compute b) (fun o =>
  obind (omap (fun p => obind (nth_error (o_dm o) (snd p)) (fun v => Some (WGas (fst p + 1) b v)))
           (combine include (seq 0 (List.length include)))) (fun gas =>
  Some ([WSoa b (o_soa o); WAw b (o_aw o); WSize b (o_size o)] ++ gas ++
        [WIndex1 (ns + 1 + b * nc); WIndex2 (ns + (b + 1) * nc); WSlice (o_dm o)]))).

(* 3518-3531 *)
Definition cleared : mem := Mem zeros zeros zeros (fun _ => zeros) zeros 0 0.

(* After the loop (3645-3646): total_SOA_mass, aw_array, size_array, dy_dt. *)
Definition outputs (m : mem) : R * list R * list R * list R :=
  (rsum (array nb (m_soa m)) * 1000000000000,
   array nb (m_aw m), array nb (m_size m),
   array (ns + nc * nb) (fun x => if x <? ns then m_dy m x - rsum (array nb (m_gas m x)) else m_dy m x))%R.

(* An execution of the parallel loop: each thread runs the iterations it was
   given one after the other; the threads' steps are merged in any way. *)
Definition parallel_trace (tr : list step) : Prop :=
  exists (threads : list (list nat)) (progs : list (list step)),
    Permutation (concat threads) (seq 0 nb) /\
    omap (fun l => option_map (@concat _) (omap bin_steps l)) threads = Some progs /\
    interleaves progs tr.

(* One thread, iterations in the order of bins. *)
Definition serial (bins : list nat) : option (list step) := option_map (@concat _) (omap bin_steps bins).

Definition dydt_partition (bins : list nat) : option (R * list R * list R * list R) :=
  if dims_ok then obind (serial bins) (fun l => obind (run_steps l cleared) (fun m => Some (outputs m))) else None.
End Routine.

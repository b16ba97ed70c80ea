(* Rate expressions as they occur in MCM mechanisms: KPP expressions over the
   constants of the MCM that have a value. *)
From Coq Require Import List Bool Arith Ascii String ZArith QArith Reals.
From Verif Require Import Base PyStr SpecRate SpecRateValue SpecMcmEnv.
Import ListNotations.
Import Coq.Lists.List.

Definition mcm_text (t : str) : Prop := exists e RO2 H2O T ttime v,
  t = show kpp e /\ good e /\ well_formed e /\ proper_names e /\ means (mcm_var RO2 H2O T) (mcm_J ttime) e v.

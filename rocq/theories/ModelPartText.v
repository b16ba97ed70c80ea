(* The text of Partitioning.f90, character by character, as
   write_partitioning_section_fortran_ignore writes it
   (Parse_eqn_file.py:3418-3649).  [date] is what datetime.now() prints, [tl]
   the argument total_length_y; the lists follow the order of the f.write
   calls. *)
From Coq Require Import List Bool Arith Ascii String.
From Verif Require Import Base PyStr ParseShow ModelWrite.
Import ListNotations.
Import Coq.Lists.List.
Open Scope nat_scope.
Open Scope list_scope.

(* 3436-3458 *)
Definition part_header : list str := map s_ [
  "!##################################################################################################### ";
  "! Fortran function to calculating dy/dt according to gas-to-particle partitioning                    # ";
  "!    Copyright (C) 2018  David Topping : david.topping@manchester.ac.uk                             # ";
  "!                                      : davetopp80@gmail.com                                       # ";
  "!    Personal website: davetoppingsci.com                                                           # ";
  "!                                                                                                   # ";
  "!    All Rights Reserved.                                                                           # ";
  "!    This file is part of PyBox.                                                                    # ";
  "!                                                                                                   # ";
  "!    PyBox is free software: you can redistribute it and/or modify it under                         # ";
  "!    the terms of the GNU General Public License as published by the Free Software                  # ";
  "!    Foundation, either version 3 of the License, or (at your option) any later                     # ";
  "!    version.                                                                                       # ";
  "!                                                                                                   # ";
  "!    PyBox is distributed in the hope that it will be useful, but WITHOUT                           # ";
  "!    ANY WARRANTY; without even the implied warranty of MERCHANTABILITY or FITNESS                  # ";
  "!    FOR A PARTICULAR PURPOSE.  See the GNU General Public License for more                         # ";
  "!    details.                                                                                       # ";
  "!                                                                                                   # ";
  "!    You should have received a copy of the GNU General Public License along with                   # ";
  "!    PyBox.  If not, see <http://www.gnu.org/licenses/>.                                            # ";
  "!                                                                                                   # ";
  "!##################################################################################################### "]%string.
(* 3459-3474 *)
Definition part_top (date : str) : list str := (s_ "! File created at " ++ date ++ s_ " ") :: map s_ [
  "";
  "";
  "subroutine dydt_partition(y,ycore,core_diss,core_mass_array,& ";
  "                          density_input,core_density_array,& ";
  "                          ignore_index,mw_array,Psat,& ";
  "                          DStar_org,alpha_d_org,C_g_i_t,N_perbin,& ";
  "                          gamma_gas,Latent_heat,GRAV,Updraft,& ";
  "                          sigma,NA,kb,Rv,R_gas,Model_temp,& ";
  "                          cp,Ra,Lv_water_vapour,total_SOA_mass,& ";
  "                          aw_array,size_array,dy_dt) ";
  "";
  "    implicit none ";
  "";
  "    !Define variables in order of appearance. Leave intent(out) until end "]%string.
(* 3475-3517 *)
Definition part_decls (tl nb ns nc : nat) : list str := [
  s_ "    REAL(8), intent(in), dimension(" ++ dec tl ++ s_ ") :: y ";
  s_ "    !f2py intent(in) :: y ";
  s_ "    REAL(8), intent(in), dimension(" ++ dec nb ++ s_ ") :: ycore,core_mass_array,& ";
  s_ "                         core_density_array, N_perbin ";
  s_ "    !f2py intent(in) ::  ycore,core_mass_array ";
  s_ "    !f2py intent(in) ::  core_density_array, N_perbin ";
  s_ "    REAL(8), intent(in), dimension(" ++ dec nc ++ s_ ") :: density_input,DStar_org,& ";
  s_ "                         alpha_d_org, gamma_gas, Latent_heat,C_g_i_t ";
  s_ "    !f2py intent(in) ::  density_input,DStar_org ";
  s_ "    !f2py intent(in) ::  alpha_d_org, gamma_gas, Latent_heat, C_g_i_t ";
  s_ "    INTEGER(8), intent(in), dimension(" ++ dec ns ++ s_ ") :: ignore_index ";
  s_ "    !f2py intent(in) ::  ignore_index ";
  s_ "    REAL(8), intent(in), dimension(" ++ dec nc ++ s_ ") :: mw_array,Psat ";
  s_ "    !f2py intent(in) ::  mw_array,Psat ";
  s_ "    !Global variables - define in parent routine ";
  s_ "    REAL(8), intent(in) :: core_diss, GRAV,Updraft,cp,Ra,Lv_water_vapour ";
  s_ "    !f2py intent(in) :: core_diss,GRAV,Updraft,cp,Ra,Lv_water_vapour ";
  s_ "    REAL(8), intent(in) :: sigma,NA,kb,Rv,R_gas,Model_temp ";
  s_ "    !f2py intent(in) :: sigma,NA,kb,Rv,R_gas,Model_temp ";
  s_ "    REAL(8), intent(out) :: total_SOA_mass ";
  s_ "    REAL(8), intent(out), dimension(" ++ dec nb ++ s_ ") :: aw_array ";
  s_ "    REAL(8), intent(out), dimension(" ++ dec nb ++ s_ ") :: size_array ";
  s_ "    REAL(8), intent(out), dimension(" ++ dec tl ++ s_ ") :: dy_dt ";
  s_ "    !f2py intent(out) :: total_SOA_mass,aw_array,size_array,dy_dt ";
  s_ "";
  s_ "    !temporary variables used in each size bin calculation ";
  s_ "    REAL(8), dimension(" ++ dec nc ++ s_ ") :: Inverse_Kn, Correction_part1, &";
  s_ "                              Correction_part2, Correction_part3,& ";
  s_ "                              Correction, Kn, dm_dt,& ";
  s_ "                              k_i_m_t_part1, k_i_m_t ";
  s_ "    REAL(8), dimension(" ++ dec ns ++ s_ "," ++ dec nb ++ s_ ") :: dy_dt_gas_matrix ";
  s_ "    REAL(8), dimension(" ++ dec nb ++ s_ ") :: total_SOA_mass_array ";
  s_ "    REAL(8) total_moles, density, diameter, radius, water_moles  ";
  s_ "    REAL(8), dimension(" ++ dec nc ++ s_ ") :: Pressure_eq, Cstar_i_m_t ";
  s_ "    REAL(8), dimension(" ++ dec nc ++ s_ ") :: kelvin_factor,y_mole_fractions  ";
  s_ "    REAL(8), dimension(" ++ dec nc ++ s_ ") :: temp_array  ";
  s_ "    REAL(8), dimension(" ++ dec (nc + 1) ++ s_ ") :: mass_array, density_array, mass_fractions_array ";
  s_ "    REAL(8) total_water_cond_mass, total_mass ";
  s_ "    INTEGER(8) size_step, index1, index2  ";
  s_ "";
  s_ "    REAL(8), PARAMETER :: Pi = 3.1415927 ";
  s_ "    INTEGER(8), PARAMETER :: num_species = " ++ dec ns ++ s_ " ";
  s_ "    INTEGER(8), PARAMETER :: num_species_condensed = " ++ dec nc ++ s_ " "].
(* 3518-3546 *)
Definition part_clear : list str := map s_ [
  "    !Set all output variables to 0 ";
  "    total_SOA_mass_array(:)=0.0D0 ";
  "    dy_dt_gas_matrix(:,:)=0.0D0 ";
  "    Pressure_eq(:)=0.0D0 ";
  "    Cstar_i_m_t(:)=0.0D0 ";
  "    kelvin_factor(:)=0.0D0 ";
  "    y_mole_fractions(:)=0.0D0 ";
  "    temp_array(:)=0.0D0 ";
  "    mass_array(:)=0.0D0 ";
  "    density_array(:)=0.0D0 ";
  "    mass_fractions_array(:)=0.0D0 ";
  "    aw_array(:)=0.0D0 ";
  "    size_array(:)=0.0D0 ";
  "    dy_dt(:)=0.0D0 ";
  "";
  "!$OMP PARALLEL DO &";
  "!$OMP& PRIVATE(size_step,total_mass),& ";
  "!$OMP& PRIVATE(total_moles,y_mole_fractions,temp_array), & ";
  "!$OMP& PRIVATE(mass_array,mass_fractions_array,density_array), & ";
  "!$OMP& PRIVATE(density,water_moles), & ";
  "!$OMP& PRIVATE(Kn,Inverse_Kn,Correction_part1, Correction_part2), & ";
  "!$OMP& PRIVATE(Correction_part3,Correction,kelvin_factor), & ";
  "!$OMP& PRIVATE(Pressure_eq,Cstar_i_m_t,k_i_m_t_part1), & ";
  "!$OMP& PRIVATE(k_i_m_t,dm_dt), & ";
  "!$OMP& SHARED(total_water_cond_mass,size_array), & ";
  "!$OMP& SHARED(ycore,core_diss,mw_array,density_input), & ";
  "!$OMP& SHARED(C_g_i_t,dy_dt,core_mass_array,R_gas,Psat), & ";
  "!$OMP& SHARED(gamma_gas,NA,alpha_d_org,Model_temp,DStar_org), & ";
  "!$OMP& SHARED(dy_dt_gas_matrix,aw_array,total_SOA_mass_array) "]%string.
(* 3547 *)
Definition part_do (nb : nat) : str := s_ "    DO size_step=1," ++ dec nb ++ s_ " ".
(* 3548-3632 *)
Definition part_bin : list str := map s_ [
  "";
  "        !print *, ""size"", size_step ";
  "        ! 1) Select a slice of y that represents this size bin ";
  "        temp_array(:)=y(num_species+1+((size_step-1)*num_species_condensed):& ";
  "        num_species+((size_step)*num_species_condensed))";
  "        total_moles=SUM(temp_array(:))+ycore(size_step)*core_diss";
  "        y_mole_fractions(:)=temp_array(:)/total_moles";
  "        ! 2) Now mask the array to set the mole fracs of some species to 0 [inc oxidants]";
  "        ! WHERE (ignore_index==1) y_mole_fractions = 0.0d0";
  "        mass_array(1:num_species_condensed)=(temp_array(:)/NA)*mw_array(:)";
  "        mass_array(num_species_condensed+1)=core_mass_array(size_step)";
  "        density_array(1:num_species_condensed)=density_input(1:num_species_condensed)";
  "        density_array(num_species_condensed+1)=core_density_array(size_step)";
  "";
  "        total_SOA_mass_array(size_step)=SUM(mass_array(1:num_species_condensed-1))";
  "        total_water_cond_mass=total_water_cond_mass+mass_array(num_species_condensed)";
  "        aw_array(size_step)=temp_array(num_species_condensed)/total_moles  ";
  "        total_mass=SUM(mass_array(:))";
  "        mass_fractions_array(:)=mass_array(:)/total_mass";
  "";
  "        density=1.0D0/(SUM(mass_fractions_array(:)/density_array(:)))";
  "";
  "        ! 3) In the below we need to remember that mass is in [g/cc] whilst density ";
  "        ! is in [kg/m3]. Thus we convert mass and number concentrations to kg/m3 and /m3 ";
  "        size_array(size_step)=((3.0D0*((total_mass*1.0D3)/ & ";
  "        (N_perbin(size_step)*1.0D6)))/(4.0D0*Pi*density))**(1.0D0/3.0D0)";
  "        ! 4) Knudsen number  ";
  "        ! Calculate the Knudsen number for all condensing molecules based on this new size ";
  "        ! This relies on mean free path for each species [cm] and particle radius [cm]";
  "        Kn(:)=gamma_gas(:)/size_array(size_step)";
  "";
  "        ! 5) Non-continuum regime correction  ";
  "        ! Calculate a correction factor according to the continuum versus non-continuum regimes";
  "        ! Expression taken from Jacobson et al (2000), page 457. They reference:";
  "        ! Fuchs and Sutugin 1971";
  "        ! Pruppacher and Klett 1997";
  "        Inverse_Kn(:)=1.0D0/Kn(:)";
  "        Correction_part1(:)=(1.33D0+0.71D0*Inverse_Kn(:))/(1.0D0+Inverse_Kn(:))";
  "        Correction_part2(:)=(4.0D0*(1.0D0-alpha_d_org(:)))/(3.0D0*alpha_d_org(:))";
  "        Correction_part3(:)=1.0E0+(Correction_part1(:)+Correction_part2(:))*Kn(:)";
  "        Correction(:)=1.0D0/Correction_part3(:)";
  "";
  "        ! 6) Kelvin factor  ";
  "        ! Now calculate a kelvin factor for every semi-volatile compound in this size bin";
  "        kelvin_factor(:)=EXP((4.0E0*mw_array(:)*1.0D-3*sigma)/ & ";
  "        (R_gas*Model_temp*size_array(size_step)*2.0D0*density)) ";
  "";
  "        ! 7) Equilibrium pressure above droplets  ";
  "        ! Now calculate an equilibrium RH for every compound in this size bin ";
  "        ! This is currently in atmospheres.  ";
  "        Pressure_eq(:)=kelvin_factor(:)*y_mole_fractions(:)*Psat(:)*101325.0D0 ";
  "        !print *, ""y_mole_fractions"", y_mole_fractions ";
  "        !print *, ""Psat"", Psat ";
  "        !print *, ""kelvin_factor"", kelvin_factor ";
  "        !print *, ""Pressure_eq"", Pressure_eq ";
  "        !print *, ""mass_array"", mass_array ";
  "";
  "        ! 8) Calculate the equilibrium concentration equivalent ";
  "        ! [Pa * molecules/mole * k mole  / Pa cm3 hence molecules/cm3] ";
  "        Cstar_i_m_t(:)=Pressure_eq(:)*(NA/(8.3144598D6*Model_temp))  ";
  "        !print *, ""Cstar_i_m_t"", Cstar_i_m_t ";
  "";
  "        ! 9) The droplet growth equation  ";
  "        ! The following calculates the change in mass, per particle of this size. ";
  "        ! The equation relies on the following parameters ";
  "        ! and units. Always check units ";
  "        ! radius [m] ";
  "        ! DStar_org [m2/s] - pass in [cm2/s] so needs to be converted by *1.0E-4 ";
  "        ! Pressure_gas [Pascals] ";
  "        ! Pressure_eq [Pascals] ";
  "        ! R_gas [m3 Pascals /(K mol)] ";
  "        ! molw [g/mol] ";
  "        ! T [K] ";
  "        ! The units of the equation should therefore be g/s ";
  "        ! ASTEM version - should be the same as the Jacobson version once coverted to molecules/cc/s ";
  "        k_i_m_t_part1(:) = DStar_org(:)*Correction(:) ";
  "        k_i_m_t(:)=4.0D0*Pi*size_array(size_step)*1.0D2*N_perbin(size_step)*k_i_m_t_part1(:) ";
  "        !print *, ""k_i_m_t"", k_i_m_t ";
  "        dm_dt(:)=k_i_m_t(:)*(C_g_i_t(:)-Cstar_i_m_t(:))   ";
  "        !print *, ""dm_dt"", dm_dt ";
  "        !print *, ""C_g_i_t"", C_g_i_t ";
  "";
  "        ! 10) Now update the contribution to the ODEs being solved  ";
  "        ! a) Add contributory loss from the gas phase to particle phase [this includes water] "]%string.
(* 3633-3636: the step-th entry of include_index. *)
Definition part_gas (p : nat * nat) : str :=
  s_ "        dy_dt_gas_matrix(" ++ dec (fst p + 1) ++ s_ ",size_step)=dm_dt(" ++ dec (snd p + 1) ++ s_ ") ".
(* 3638-3648 *)
Definition part_end : list str := map s_ [
  "        ! b) Add a contributory gain to the particle phase from the gas phase ";
  "        index1=num_species+1+((size_step-1)*num_species_condensed)  ";
  "        index2=num_species+((size_step)*num_species_condensed)  ";
  "        dy_dt(index1:index2)=dm_dt(1:num_species_condensed)  ";
  "";
  "    ENDDO ";
  "!$OMP END PARALLEL DO ";
  "   dy_dt(1:num_species)=dy_dt(1:num_species)-SUM(dy_dt_gas_matrix, DIM=2)  ";
  "   total_SOA_mass=SUM(total_SOA_mass_array)*(1.0D12)  ";
  "";
  "end subroutine "]%string.

Definition partition_lines (date : str) (tl nb ns nc : nat) (include : list nat) : list str :=
  part_header ++ part_top date ++ part_decls tl nb ns nc ++ part_clear ++ [part_do nb] ++ part_bin ++
  map part_gas (combine include (seq 0 (List.length include))) ++ part_end.
Definition partition_text (date : str) (tl nb ns nc : nat) (include : list nat) : str :=
  unlines (partition_lines date tl nb ns nc include).

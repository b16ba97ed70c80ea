(* The fixed text of the two rate files, line by line as the f.write calls of
   write_rate_file_numba and write_rate_file_fortran put it, comments and blank
   lines included.  The writer functions are in ModelRateWrite.v. *)
From Coq Require Import List String.
Import ListNotations.
Open Scope string_scope.

(* Parse_eqn_file.py:824-846: the comment block before the date *)
Definition numba_top : list string := [
  "##################################################################################################### ";
  "#    Personal website: davetoppingsci.com                                                           # ";
  "#    Copyright (C) 2018  David Topping : david.topping@manchester.ac.uk                             # ";
  "#                                      : davetopp80@gmail.com                                       # ";
  "#    Personal website: davetoppingsci.com                                                           # ";
  "#                                                                                                   # ";
  "#    All Rights Reserved.                                                                           # ";
  "#    This file is part of PyBox.                                                                    # ";
  "#                                                                                                   # ";
  "#    PyBox is free software: you can redistribute it and/or modify it under                         # ";
  "#    the terms of the GNU General Public License as published by the Free Software                  # ";
  "#    Foundation, either version 3 of the License, or (at your option) any later                     # ";
  "#    version.                                                                                       # ";
  "#                                                                                                   # ";
  "#    PyBox is distributed in the hope that it will be useful, but WITHOUT                           # ";
  "#    ANY WARRANTY; without even the implied warranty of MERCHANTABILITY or FITNESS                  # ";
  "#    FOR A PARTICULAR PURPOSE.  See the GNU General Public License for more                         # ";
  "#    details.                                                                                       # ";
  "#                                                                                                   # ";
  "#    You should have received a copy of the GNU General Public License along with                   # ";
  "#    PyBox.  If not, see <http://www.gnu.org/licenses/>.                                            # ";
  "#                                                                                                   # ";
  "##################################################################################################### "
].

(* Parse_eqn_file.py:848-889: imports, helper functions, head of evaluate_rates *)
Definition numba_module : list string := [
  "";
  "import numpy as np ";
  "import numba as nb";
  "@nb.jit(nb.f8(nb.f8), nopython=True) ";
  "def numba_exp(x): ";
  "    return np.exp(x) ";
  "";
  "@nb.jit(nb.f8(nb.f8), nopython=True) ";
  "def numba_log10(x): ";
  "    return np.log10(x) ";
  "";
  "@nb.jit(nb.f8(nb.f8), nopython=True) ";
  "def numba_log(x): ";
  "    return np.log(x) ";
  "";
  "@nb.jit(nb.f8(nb.f8), nopython=True) ";
  "def numba_abs(x): ";
  "    return np.abs(x) ";
  "";
  "@nb.jit(nb.f8(nb.f8), nopython=True) ";
  "def numba_sqrt(x): ";
  "    return np.sqrt(x) ";
  "";
  "@nb.jit(nb.f8(nb.f8), nopython=True) ";
  "def numba_arccos(x): ";
  "    return np.arccos(x) ";
  "";
  "@nb.jit(nb.f8(nb.f8), nopython=True) ";
  "def numba_cos(x): ";
  "    return np.cos(x) ";
  "";
  "@nb.jit(nb.f8(nb.f8), nopython=True) ";
  "def numba_sin(x): ";
  "    return np.sin(x) ";
  "";
  "@nb.jit(nb.f8(nb.f8), nopython=True) ";
  "def numba_arctan(x): ";
  "    return np.arctan(x) ";
  "";
  "@nb.jit('float64[:](float64,float64,float64,float64,float64[:],float64[:])', nopython=True, cache=True)";
  "def evaluate_rates(ttime,RO2,H2O,temp,rate_values,J):"
].

(* Parse_eqn_file.py:893-1270: the body of evaluate_rates before the reactions *)
Definition numba_fixed : list string := [
  "    # Creating reference to constant values used in rate expressions";
  "    # constants used in calculation of reaction rates";
  "    M  = 2.55E+19  #Check this against pressure assumed in model";
  "    N2 = 0.79*M";
  "    O2 = 0.2095*M";
  "    # kro2no : ro2      + no      = ro      + no2";
  "    #        : ro2      + no      = rono2";
  "    # iupac 1992";
  "    KRONO2    = 2.70E-12*numba_exp(360.0/temp)";
  "    KRO2NO = 2.7E-12*numba_exp(360.0/temp) ";
  "    # kro2ho2: ro2      + ho2     = rooh    + o2";
  "    # mcm protocol [1997]";
  "    KRO2HO2   = 2.91E-13*numba_exp(1300.0/temp)";
  "    # kapho2 : rcoo2    + ho2     = products";
  "    # mcm protocol [1997]";
  "    KAPHO2    = 5.2E-13*numba_exp(980.0/temp)";
  "    # kapno  : rcoo2    + no      = products";
  "    # mej [1998]";
  "    KAPNO = 7.5E-12*numba_exp(290.0/temp)";
  "    # kro2no3: ro2      + no3     = products";
  "    # mcm protocol [1997]";
  "    KRO2NO3   = 2.3E-12";
  "    # kno3al : no3      + rcho    = rcoo2   + hno3";
  "    # mcm protocol [1997]";
  "    KNO3AL    = 1.4E-12*numba_exp(-1860.0/temp)";
  "    # kdec   : ro                 = products";
  "    # mcm protocol [1997]";
  "    KDEC      = 1.00E+06";
  "    KROSEC = 2.50E-14*numba_exp(-300.0/temp)";
  "    KALKOXY=3.70E-14*numba_exp(-460.0/temp)*O2";
  "    KALKPXY=1.80E-14*numba_exp(-260.0/temp)*O2";
  "    KROPRIM = 2.50E-14*numba_exp(-300.0/temp)";
  "    KCH3O2 = 1.03E-13*numba_exp(365.0/temp)";
  "    K298CH3O2 = 3.5E-13";
  "    K14ISOM1 = 3.00E7*numba_exp(-5300.0/temp)	    # -------------------------------------------------------------------";
  "    # complex reactions";
  "    # -------------------------------------------------------------------";
  "    # kfpan kbpan";
  "    # formation and decomposition of pan";
  "    # iupac 2001 (mcmv3.2)";
  "    kc0     = 3.28E-28*M*(temp/300.0)**(-6.87)";
  "    kci     = 1.125E-11*(temp/300.0)**(-1.105)";
  "    krc     = kc0/kci";
  "    fcc     = 0.30";
  "    nc      = 0.75-(1.27*numba_log10(fcc))";
  "    fc      = 10**(numba_log10(fcc)/(1.0+((numba_log10(krc))/nc)**2.0))";
  "    KFPAN   = (kc0*kci)*fc/(kc0+kci)";
  "    kd0     = 1.10E-05*M*numba_exp(-10100.0/temp)";
  "    kdi     = 1.90E+17*numba_exp(-14100.0/temp)";
  "    krd     = kd0/kdi";
  "    fcd     = 0.30";
  "    ncd     = 0.75-(1.27*numba_log10(fcd))";
  "    fd      = 10.0**(numba_log10(fcd)/(1.0+((numba_log10(krd))/ncd)**2.0))";
  "    KBPAN   = (kd0*kdi)*fd/(kd0+kdi)";
  "    KPPN0     = 1.7E-03*M*numba_exp(-11280.0/temp)";
  "    KPPNI     = 8.3E+16*numba_exp(-13940.0/temp)";
  "    KRPPN     = KPPN0/KPPNI";
  "    FCPPN     = 0.36";
  "    NCPPN     = 0.75-(1.27*numba_log10(fcd))";
  "    FPPN      = 10.0**(numba_log10(fcd)/(1.0+((numba_log10(krd))/ncd)**2.0))";
  "    KBPPN   = (KPPN0*KPPNI)*FCPPN/(KPPN0+KPPNI)";
  "    # kmt01  : o        + no      = no2";
  "    # iupac 2001 (mcmv3.2)";
  "    k10     = 1.00E-31*M*(temp/300.0)**(-1.6)";
  "    k1i     = 5.0E-11*(temp/300.0)**(0.3)";
  "    kr1     = k10/k1i";
  "    fc1     = 0.85";
  "    nc1     = 0.75-(1.27*numba_log10(fc1))";
  "    f1      = 10.0**(numba_log10(fc1)/(1.0+((numba_log10(kr1)/nc1))**2.0))";
  "    KMT01   = (k10*k1i)*f1/(k10+k1i)";
  "    # kmt02  : o        + no2     = no3";
  "    # iupac 2001 (mcmv3.2)";
  "    k20     = 1.30E-31*M*(temp/300.0)**(-1.5)";
  "    k2i     = 2.30E-11*(temp/300.0)**(0.24)";
  "    kr2     = k20/k2i";
  "    fc2     = 0.6";
  "    nc2     = 0.75-(1.27*numba_log10(fc2))";
  "    f2      = 10.0**(numba_log10(fc2)/(1.0+((numba_log10(kr2)/nc2))**2.0))";
  "    KMT02   = (k20*k2i)*f2/(k20+k2i)";
  "    # kmt03  : no2      + no3     = n2o5";
  "    # iupac 2006, mcmv3.2";
  "    k30     = 3.60E-30*M*(temp/300.0)**(-4.1)";
  "    k3i     = 1.90E-12*(temp/300.0)**(0.2)";
  "    kr3     = k30/k3i";
  "    fc3     = 0.35";
  "    nc3     = 0.75-(1.27*numba_log10(fc3))";
  "    f3      = 10.0**(numba_log10(fc3)/(1.0+((numba_log10(kr3)/nc3))**2.0))";
  "    KMT03   = (k30*k3i)*f3/(k30+k3i)";
  "    # kmt04  : n2o5               = no2     + no3";
  "    # iupac 2006, mcmv3.2";
  "    k40     = 1.30E-03*M*(temp/300.0)**(-3.5)*numba_exp(-11000.0/temp)";
  "    k4i     = 9.70E+14*(temp/300.0)**(0.1)*numba_exp(-11080.0/temp)";
  "    kr4     = k40/k4i";
  "    fc4     = 0.35";
  "    nc4     = 0.75-(1.27*numba_log10(fc4))";
  "    f4      = 10.0**(numba_log10(fc4)/(1+((numba_log10(kr4)/nc4))**2.0))";
  "    KMT04   = (k40*k4i)*f4/(k40+k4i)";
  "    # kmt05  : oh       + co(+o2) = ho2     + co2";
  "    # iupac 2006";
  "    KMT05  = 1.44E-13*(1.0 + (M/4.2E19))";
  "    # kmt06  : ho2      + ho2     = h2o2    + o2";
  "    # water enhancement factor";
  "    # iupac 1992";
  "    KMT06  = 1.0 + (1.40E-21*numba_exp(2200.0/temp)*H2O)";
  "    # kmt06  = 1.0 + (2.00E-25*numba_exp(4670.0/temp)*h2o)";
  "    # S+R 2005 values";
  "    # kmt07  : oh       + no      = hono";
  "    # iupac 2006, mcmv3.2";
  "    k70     = 7.40E-31*M*(temp/300.0)**(-2.4)";
  "    k7i     = 3.30E-11*(temp/300.0)**(-0.3)";
  "    kr7     = k70/k7i";
  "    fc7     = 0.81";
  "    nc7     = 0.75-(1.27*numba_log10(fc7))";
  "    f7      = 10.0**(numba_log10(fc7)/(1+((numba_log10(kr7)/nc7))**2.0))";
  "    KMT07   = (k70*k7i)*f7/(k70+k7i)";
  "    # kmt08  : oh       + no2     = hno3";
  "    # iupac 2006, mcmv3.2";
  "    k80     = 3.2E-30*M*(temp/300.0)**(-4.5)";
  "    k8i     = 3.0E-11";
  "    kr8     = k80/k8i";
  "    fc8     = 0.41";
  "    nc8     = 0.75-(1.27*numba_log10(fc8))";
  "    f8      = 10.0**(numba_log10(fc8)/(1.0+((numba_log10(kr8)/nc8))**2.0))";
  "    KMT08   = (k80*k8i)*f8/(k80+k8i)";
  "    # kmt09  : ho2      + no2     = ho2no2";
  "    # iupac 1997, mcmv3.2";
  "    k90     = 1.4E-31*M*(temp/300.0)**(-3.1)";
  "    k9i     = 4.0E-12";
  "    kr9     = k90/k9i";
  "    fc9     = 0.4";
  "    nc9     = 0.75-(1.27*numba_log10(fc9))";
  "    f9      = 10.0**(numba_log10(fc9)/(1.0+((numba_log10(kr9)/nc9))**2.0))";
  "    KMT09   = (k90*k9i)*f9/(k90+k9i)";
  "    # kmt10  : ho2no2             = ho2     + no2";
  "    # iupac 1997, mcmv3.2";
  "    k100     = 4.10E-05*M*numba_exp(-10650.0/temp)";
  "    k10i     = 6.0E+15*numba_exp(-11170.0/temp)";
  "    kr10     = k100/k10i";
  "    fc10     = 0.4";
  "    nc10     = 0.75-(1.27*numba_log10(fc10))";
  "    f10      = 10.0**(numba_log10(fc10)/(1.0+((numba_log10(kr10)/nc10))**2.0))";
  "    KMT10    = (k100*k10i)*f10/(k100+k10i)";
  "    # kmt11  : oh       + hno3    = h2o     + no3";
  "    # iupac 2006, mcmv3.2";
  "    k1     = 2.40E-14*numba_exp(460.0/temp)";
  "    k3     = 6.50E-34*numba_exp(1335.0/temp)";
  "    k4     = 2.70E-17*numba_exp(2199.0/temp)";
  "    k2     = (k3*M)/(1.0+(k3*M/k4))";
  "    KMT11  = k1 + k2";
  "    # kmt12 iupac 2006, mcmv3.2";
  "    k120 = 2.5E-31*((temp/300.0)**(-2.6))*M";
  "    k12i = 2.0E-12";
  "    kr12 = k120/k12i";
  "    fc12 = 0.53";
  "    nc12 = 0.75-(1.27*numba_log10(fc12))";
  "    f12  = 10.0**(numba_log10(fc12)/(1.0+((numba_log10(kr12)/nc12))**2.0))";
  "    KMT12    = (k120*k12i)*f12/(k120+k12i)";
  "    # kmt13  : ch3o2    + no2     = ch3o2no2";
  "    # iupac 2006";
  "    k130     = 2.50E-30*((temp/300.0)**(-5.5))*M";
  "    k13i     = 1.80E-11";
  "    kr13     = k130/k13i";
  "    fc13     = 0.36";
  "    nc13     = 0.75-(1.27*numba_log10(fc13))";
  "    f13      = 10.0**(numba_log10(fc13)/(1.0+((numba_log10(kr13)/nc13))**2.0))";
  "    KMT13    = (k130*k13i)*f13/(k130+k13i)";
  "    # kmt14  : ch3o2no2           = ch3o2   + no2";
  "    # iupac 2006, mcmv3.2";
  "    k140     = 9.00E-05*numba_exp(-9690.0/temp)*M";
  "    k14i     = 1.10E+16*numba_exp(-10560.0/temp)";
  "    kr14     = k140/k14i";
  "    fc14     = 0.36";
  "    nc14     = 0.75-(1.27*numba_log10(fc14))";
  "    f14      = 10.0**(numba_log10(fc14)/(1.0+((numba_log10(kr14)/nc14))**2.0))";
  "    KMT14    = (k140*k14i)*f14/(k140+k14i)";
  "    # kmt15 iupac 2006, mcmv3.2";
  "    k150 = 8.60E-29*((temp/300.0)**(-3.1))*M";
  "    k15i = 9.00E-12*((temp/300.0)**(-0.85))";
  "    kr15 = k150/k15i";
  "    fc15 = 0.48";
  "    nc15 = 0.75-(1.27*numba_log10(fc15))";
  "    f15  = 10.0**(numba_log10(fc15)/(1.0+((numba_log10(kr15)/nc15))**2.0))";
  "    KMT15 = (k150*k15i)*f15/(k150+k15i)";
  "    # kmt16  :  oh  +  c3h6";
  "    # iupac 2006";
  "    k160     = 8.00E-27*((temp/300.0)**(-3.5))*M";
  "    k16i     = 3.00E-11*((temp/300.0)**(-1.0))";
  "    kr16     = k160/k16i";
  "    fc16     = 0.5";
  "    nc16     = 0.75-(1.27*numba_log10(fc16))";
  "    f16      = 10.0**(numba_log10(fc16)/(1.0+((numba_log10(kr16)/nc16))**2.0))";
  "    KMT16    = (k160*k16i)*f16/(k160+k16i)";
  "    # kmt17 iupac 2006";
  "    k170 = 5.00E-30*((temp/300.0)**(-1.5))*M";
  "    k17i = 1.00E-12";
  "    kr17 = k170/k17i";
  "    fc17 = (0.17*numba_exp(-51./temp))+numba_exp(-1.0*temp/204.0)";
  "    nc17 = 0.75-(1.27*numba_log10(fc17))";
  "    f17  = 10.0**(numba_log10(fc17)/(1.0+((numba_log10(kr17)/nc17))**2.0))";
  "    KMT17 = (k170*k17i)*f17/(k170+k17i)";
  "    KMT18 = 9.5E-39*O2*numba_exp(5270.0/temp)/(1+7.5E-29*O2*numba_exp(5610.0/temp))";
  "    # ************************************************************************";
  "    # define photolysis reaction rates using the AtChem2 model which can be found: ";
  "    # https://github.com/AtChem/AtChem2 ";
  "    # ************************************************************************";
  "    pi = 4.0*numba_arctan(1.0) ";
  "    currentDayOfYear=150.0 ";
  "    latitude=51.51  ";
  "    longitude=0.13  ";
  "    cosx_threshold = 1.0E-30  ";
  "    theta = 2.0 * pi * (currentDayOfYear - 1.0) / 365.0 ";
  "    # The sun declination is the angle between the center of the Sun ";
  "    # and Earths equatorial plane. ";
  "    b0 =  0.006918 ";
  "    b1 = -0.399912 ";
  "    b2 =  0.070257 ";
  "    b3 = -0.006758 ";
  "    b4 =  0.000907 ";
  "    b5 = -0.002697 ";
  "    b6 =  0.001480 ";
  "    dec = b0 + b1 * numba_cos(theta) + b2 * numba_sin(theta) + b3 * numba_cos(2.0 * theta) + b4 * numba_sin(2.0 * theta) + b5 * numba_cos(3.0 * theta) + b6 * numba_sin(3.0 * theta) ";
  "    # The equation of time accounts for the discrepancy between the ";
  "    # apparent and the mean solar time at a given location. ";
  "    c0 = 0.000075 ";
  "    c1 = 0.001868 ";
  "    c2 = -0.032077 ";
  "    c3 = -0.014615 ";
  "    c4 = -0.040849 ";
  "    eqtime = c0 + c1 * numba_cos(theta) + c2 * numba_sin(theta) + c3 * numba_cos(2.0 * theta) + c4 * numba_sin(2.0 * theta) ";
  "    currentFracDay = currentDayOfYear - 1.0 + ( ttime / 86400.0 ) ";
  "    currentFracHour =  (currentFracDay - int(currentFracDay)) * 24.0 ";
  "    lha = pi * ((currentFracHour / 12.0) - (1.0 + longitude / 180.0)) + eqtime ";
  "    lat = latitude * pi / 180.0 ";
  "    sinld = numba_sin( lat ) * numba_sin( dec ) ";
  "    cosld = numba_cos( lat ) * numba_cos( dec ) ";
  "    # Calculate the cosine of the solar zenith angle. ";
  "    cosx = numba_cos( lha ) * cosld + sinld ";
  "    # Set negative cosx to zero and calculate the inverse ";
  "    # (secx=1/cosx). The MCM photolysis parameterisation ";
  "    # (http://mcm.leeds.ac.uk/MCM/parameters/photolysis_param.htt) ";
  "    # requires cosx and secx to calculate the photolysis rates. ";
  "    if cosx <= cosx_threshold: ";
  "        cosx = 0.0 ";
  "        secx = 1.0E+20 ";
  "    else: ";
  "        secx = 1.0 / cosx ";
  "    # Data taken from photolysis.txt. Calculations done in the form of:";
  "    # j(k) = l(k)*cosx**( mm(k))*numba_exp(-nn(k)*secx)";
  "    #J          L           M          N";
  "    J[1]=6.073E-05*cosx**(1.743)*numba_exp(-1.0*0.474*secx)";
  "    J[2]=4.775E-04*cosx**(0.298)*numba_exp(-1.0*0.080*secx)";
  "    J[3]=1.041E-05*cosx**(0.723)*numba_exp(-1.0*0.279*secx)";
  "    J[4]=1.165E-02*cosx**(0.244)*numba_exp(-1.0*0.267*secx)";
  "    J[5]=2.485E-02*cosx**(0.168)*numba_exp(-1.0*0.108*secx)";
  "    J[6]=1.747E-01*cosx**(0.155)*numba_exp(-1.0*0.125*secx)";
  "    J[7]=2.644E-03*cosx**(0.261)*numba_exp(-1.0*0.288*secx)";
  "    J[8]=9.312E-07*cosx**(1.230)*numba_exp(-1.0*0.307*secx)";
  "    J[11]=4.642E-05*cosx**(0.762)*numba_exp(-1.0*0.353*secx)";
  "    J[12]=6.853E-05*cosx**(0.477)*numba_exp(-1.0*0.323*secx)";
  "    J[13]=7.344E-06*cosx**(1.202)*numba_exp(-1.0*0.417*secx)";
  "    J[14]=2.879E-05*cosx**(1.067)*numba_exp(-1.0*0.358*secx)";
  "    J[15]=2.792E-05*cosx**(0.805)*numba_exp(-1.0*0.338*secx)";
  "    J[16]=1.675E-05*cosx**(0.805)*numba_exp(-1.0*0.338*secx)";
  "    J[17]=7.914E-05*cosx**(0.764)*numba_exp(-1.0*0.364*secx)";
  "    J[18]=1.482E-06*cosx**(0.396)*numba_exp(-1.0*0.298*secx)";
  "    J[19]=1.482E-05*cosx**(0.396)*numba_exp(-1.0*0.298*secx)";
  "    J[20]=7.600E-04*cosx**(0.396)*numba_exp(-1.0*0.298*secx)";
  "    J[21]=7.992E-07*cosx**(1.578)*numba_exp(-1.0*0.271*secx)";
  "    J[22]=5.804E-06*cosx**(1.092)*numba_exp(-1.0*0.377*secx)";
  "    J[23]=2.4246E-06*cosx**(0.395)*numba_exp(-1.0*0.296*secx)";
  "    J[24]=2.424E-06*cosx**(0.395)*numba_exp(-1.0*0.296*secx)";
  "    J[31]=6.845E-05*cosx**(0.130)*numba_exp(-1.0*0.201*secx)";
  "    J[32]=1.032E-05*cosx**(0.130)*numba_exp(-1.0*0.201*secx)";
  "    J[33]=3.802E-05*cosx**(0.644)*numba_exp(-1.0*0.312*secx)";
  "    J[34]=1.537E-04*cosx**(0.170)*numba_exp(-1.0*0.208*secx)";
  "    J[35]=3.326E-04*cosx**(0.148)*numba_exp(-1.0*0.215*secx)";
  "    J[41]=7.649E-06*cosx**(0.682)*numba_exp(-1.0*0.279*secx)";
  "    J[51]=1.588E-06*cosx**(1.154)*numba_exp(-1.0*0.318*secx)";
  "    J[52]=1.907E-06*cosx**(1.244)*numba_exp(-1.0*0.335*secx)";
  "    J[53]=2.485E-06*cosx**(1.196)*numba_exp(-1.0*0.328*secx)";
  "    J[54]=4.095E-06*cosx**(1.111)*numba_exp(-1.0*0.316*secx)";
  "    J[55]=1.135E-05*cosx**(0.974)*numba_exp(-1.0*0.309*secx)";
  "    J[56]=4.365E-05*cosx**(1.089)*numba_exp(-1.0*0.323*secx)";
  "    J[57]=3.363E-06*cosx**(1.296)*numba_exp(-1.0*0.322*secx)";
  "    J[61]=7.537E-04*cosx**(0.499)*numba_exp(-1.0*0.266*secx)";
  "    TEMP=temp";
  "";
  "    # Creating numpy array to hold results of expressions taken from .eqn file "
].

(* Parse_eqn_file.py:1274-1275 *)
Definition numba_end : list string := [
  "";
  "    return rate_values "
].

(* Parse_eqn_file.py:1308-1313 *)
Definition fortran_top : list string := [
  "subroutine evaluate_rates(RO2,H2O,TEMP,ttime,rate_values)";
  "    implicit none ";
  "    REAL(8), intent(in) :: RO2,H2O,TEMP ";
  "    !f2py intent(in) :: RO2,H2O,TEMP "
].

(* Parse_eqn_file.py:1315-1742: declarations, constants, photolysis; N2 and O2 as formatted with %E (1372-1373) *)
Definition fortran_fixed : list string := [
  "    !f2py intent(out) :: rate_values ";
  "    ! Creating reference to constant values used in rate expressions";
  "    REAL(8) KRONO2, KRO2HO2, KAPHO2, KAPNO, KRO2NO3  ";
  "     REAL(8) KNO3AL, KDEC, KROSEC, KALKOXY, KALKPXY  ";
  "     REAL(8) kc0, kci, krc, nc, fc, fcc, KFPAN  ";
  "     REAL(8) kd0, kdi, krd, fcd, ncd, fd, KBPAN  ";
  "     REAL(8) k10, k1i, kr1, fc1, nc1, f1, KMT01  ";
  "     REAL(8) k20, k2i, kr2, fc2, nc2, f2, KMT02  ";
  "     REAL(8) k30, k3i, kr3, fc3, nc3, f3, KMT03  ";
  "     REAL(8) k40, k4i, kr4, fc4, nc4, f4, KMT04  ";
  "     REAL(8) KMT05, KMT06  ";
  "     REAL(8) k70, k7i, kr7, fc7, nc7, f7, KMT07  ";
  "     REAL(8) k80, k8i, kr8, fc8, nc8, f8, KMT08  ";
  "     REAL(8) k90, k9i, kr9, fc9, nc9, f9, KMT09  ";
  "     REAL(8) k100, k10i, kr10, fc10, nc10, f10, KMT10  ";
  "     REAL(8) k1, k3, k4, k2, KMT11  ";
  "     REAL(8) k120, k12i, kr12, fc12, nc12, f12, KMT12  ";
  "     REAL(8) k130, k13i, kr13, fc13, nc13, f13, KMT13  ";
  "     REAL(8) k140, k14i, kr14, fc14, nc14, f14, KMT14  ";
  "     REAL(8) k150, k15i, kr15, fc15, nc15, f15, KMT15  ";
  "     REAL(8) k160, k16i, kr16, fc16, nc16, f16, KMT16  ";
  "     REAL(8) k170, k17i, kr17, fc17, nc17, f17, KMT17  ";
  "     REAL(8) KRO2NO, K14ISOM1  ";
  "     REAL(8) KROPRIM, KCH3O2, K298CH3O2, KMT18  ";
  "     REAL(8) KPPN0, KPPNI, KRPPN, FCPPN, NCPPN  ";
  "     REAL(8) FPPN, KBPPN  ";
  "     REAL(8) b0, b1, b2, b3, b4, b5, b6  ";
  "     REAL(8) currentDayOfYear  ";
  "     REAL(8) c0, c1, c2, c3, c4  ";
  "     REAL(8) currentFracDay, currentFracHour, eqtime  ";
  "     REAL(8) latitude, longitude  ";
  "     REAL(8), PARAMETER :: cosx_threshold = 1.0E-30  ";
  " ";
  "    REAL(8), intent(IN)  :: ttime ";
  "    !f2py intent(in) :: ttime ";
  "    REAL(8) theta, secx, cosx ";
  "    REAL(8) lat, pi, radian, dec, lha, sinld, cosld ";
  "    REAL(8), dimension(61) :: J ";
  "    REAL(8), PARAMETER :: M  = 2.55E+19";
  "    REAL(8), PARAMETER :: N2 = 2.014500E+19 ";
  "    REAL(8), PARAMETER :: O2 = 5.342250E+18 ";
  "";
  "    ! Creating numpy array to hold results of expressions taken from .eqn file ";
  "";
  "    ! The following was taken from the AtChem2 model which can be found: ";
  "    ! https://github.com/AtChem/AtChem2 ";
  "    ! Specifically I have used the equations for defining zenith angles and ";
  "    ! thus impacting photolysis rates ";
  "";
  "    pi = 4.0*ATAN(1.0)  ";
  "    !!USER TO CHANGE THESE VALUES ";
  "    currentDayOfYear=150.0 ";
  "    latitude=51.51  ";
  "    longitude=0.13  ";
  "";
  "    theta = 2.0 * pi * (currentDayOfYear - 1.0) / 365.0  ";
  "";
  "    ! The sun declination is the angle between the center of the Sun  ";
  "    ! and Earths equatorial plane.  ";
  "    b0 =  0.006918  ";
  "    b1 = -0.399912 ";
  "    b2 =  0.070257 ";
  "    b3 = -0.006758 ";
  "    b4 =  0.000907 ";
  "    b5 = -0.002697 ";
  "    b6 =  0.001480 ";
  "    dec = b0 + b1 * cos(theta) + b2 * sin(theta) + b3 * cos(2.0 * theta) + & ";
  "        b4 * sin(2.0 * theta) + b5 * cos(3.0 * theta) + b6 * sin(3.0 * theta) ";
  "";
  "    ! The equation of time accounts for the discrepancy between the ";
  "    ! apparent and the mean solar time at a given location. ";
  "    c0 = 0.000075 ";
  "    c1 = 0.001868 ";
  "    c2 = -0.032077 ";
  "    c3 = -0.014615 ";
  "    c4 = -0.040849 ";
  "    eqtime = c0 + c1 * cos(theta) + c2 * sin(theta) + c3 * cos(2.0 * theta) + & ";
  "        c4 * sin(2.0 * theta) ";
  "    currentFracDay = currentDayOfYear - 1.0 + ( ttime / 86400.0 ) ";
  "    currentFracHour =  (currentFracDay - floor(currentFracDay)) * 24.0 ";
  "    lha = pi * ((currentFracHour / 12.0) - (1.0 + longitude / 180.0)) + eqtime ";
  "";
  "    lat = latitude * pi / 180.0 ";
  "    sinld = sin( lat ) * sin( dec ) ";
  "    cosld = cos( lat ) * cos( dec ) ";
  "    ! Calculate the cosine of the solar zenith angle. ";
  "    cosx = cos( lha ) * cosld + sinld ";
  "";
  "    ! Set negative cosx to zero and calculate the inverse ";
  "    ! (secx=1/cosx). The MCM photolysis parameterisation ";
  "    ! (http://mcm.leeds.ac.uk/MCM/parameters/photolysis_param.htt) ";
  "    ! requires cosx and secx to calculate the photolysis rates. ";
  "    if ( cosx <= cosx_threshold ) then ";
  "      cosx = 0.0 ";
  "     secx = 1.0E+20 ";
  "    else ";
  "      secx = 1.0 / cosx ";
  "    end if ";
  "";
  "    J(1)=6.073E-05*cosx**(1.743)*EXP(-1.0*0.474*secx)";
  "    J(2)=4.775E-04*cosx**(0.298)*EXP(-1.0*0.080*secx)";
  "    J(3)=1.041E-05*cosx**(0.723)*EXP(-1.0*0.279*secx)";
  "    J(4)=1.165E-02*cosx**(0.244)*EXP(-1.0*0.267*secx)";
  "    J(5)=2.485E-02*cosx**(0.168)*EXP(-1.0*0.108*secx)";
  "    J(6)=1.747E-01*cosx**(0.155)*EXP(-1.0*0.125*secx)";
  "    J(7)=2.644E-03*cosx**(0.261)*EXP(-1.0*0.288*secx)";
  "    J(8)=9.312E-07*cosx**(1.230)*EXP(-1.0*0.307*secx)";
  "    J(11)=4.642E-05*cosx**(0.762)*EXP(-1.0*0.353*secx)";
  "    J(12)=6.853E-05*cosx**(0.477)*EXP(-1.0*0.323*secx)";
  "    J(13)=7.344E-06*cosx**(1.202)*EXP(-1.0*0.417*secx)";
  "    J(14)=2.879E-05*cosx**(1.067)*EXP(-1.0*0.358*secx)";
  "    J(15)=2.792E-05*cosx**(0.805)*EXP(-1.0*0.338*secx)";
  "    J(16)=1.675E-05*cosx**(0.805)*EXP(-1.0*0.338*secx)";
  "    J(17)=7.914E-05*cosx**(0.764)*EXP(-1.0*0.364*secx)";
  "    J(18)=1.482E-06*cosx**(0.396)*EXP(-1.0*0.298*secx)";
  "    J(19)=1.482E-05*cosx**(0.396)*EXP(-1.0*0.298*secx)";
  "    J(20)=7.600E-04*cosx**(0.396)*EXP(-1.0*0.298*secx)";
  "    J(21)=7.992E-07*cosx**(1.578)*EXP(-1.0*0.271*secx)";
  "    J(22)=5.804E-06*cosx**(1.092)*EXP(-1.0*0.377*secx)";
  "    J(23)=2.4246E-06*cosx**(0.395)*EXP(-1.0*0.296*secx)";
  "    J(24)=2.424E-06*cosx**(0.395)*EXP(-1.0*0.296*secx)";
  "    J(31)=6.845E-05*cosx**(0.130)*EXP(-1.0*0.201*secx)";
  "    J(32)=1.032E-05*cosx**(0.130)*EXP(-1.0*0.201*secx)";
  "    J(33)=3.802E-05*cosx**(0.644)*EXP(-1.0*0.312*secx)";
  "    J(34)=1.537E-04*cosx**(0.170)*EXP(-1.0*0.208*secx)";
  "    J(35)=3.326E-04*cosx**(0.148)*EXP(-1.0*0.215*secx)";
  "    J(41)=7.649E-06*cosx**(0.682)*EXP(-1.0*0.279*secx)";
  "    J(51)=1.588E-06*cosx**(1.154)*EXP(-1.0*0.318*secx)";
  "    J(52)=1.907E-06*cosx**(1.244)*EXP(-1.0*0.335*secx)";
  "    J(53)=2.485E-06*cosx**(1.196)*EXP(-1.0*0.328*secx)";
  "    J(54)=4.095E-06*cosx**(1.111)*EXP(-1.0*0.316*secx)";
  "    J(55)=1.135E-05*cosx**(0.974)*EXP(-1.0*0.309*secx)";
  "    J(56)=4.365E-05*cosx**(1.089)*EXP(-1.0*0.323*secx)";
  "    J(57)=3.363E-06*cosx**(1.296)*EXP(-1.0*0.322*secx)";
  "    J(61)=7.537E-04*cosx**(0.499)*EXP(-1.0*0.266*secx)";
  "";
  "    ! Calculating standard rate coefficients ";
  "    ! iupac 1992 ";
  "    KRONO2    = 2.7E-12*EXP(360/TEMP) ";
  "";
  "    KRO2NO = 2.7E-12*EXP(360.0/TEMP) ";
  "";
  "    ! kro2ho2: ro2      + ho2     = rooh    + o2 ";
  "    ! mcm protocol [1997] ";
  "    KRO2HO2   = 2.91E-13*EXP(1300/TEMP)  ";
  "    ! kapho2 : rcoo2    + ho2     = products ";
  "    ! mcm protocol [1997] ";
  "    KAPHO2    = 5.2E-13*EXP(980/TEMP)	 ";
  "    ! kapno  : rcoo2    + no      = products ";
  "    ! mej [1998] ";
  "    KAPNO = 7.5E-12*EXP(290/TEMP)	 ";
  "    ! kro2no3: ro2      + no3     = products ";
  "    ! mcm protocol [1997] ";
  "    KRO2NO3   = 2.3E-12	 ";
  "    ! kno3al : no3      + rcho    = rcoo2   + hno3 ";
  "    ! mcm protocol [1997] ";
  "    KNO3AL    = 1.4E-12*EXP(-1860/TEMP) ";
  "    ! kdec   : ro                 = products ";
  "    ! mcm protocol [1997] ";
  "    KDEC      = 1.00E06 ";
  "    KROSEC = 2.50E-14*EXP(-300/TEMP) ";
  "    KALKOXY= 3.70E-14*EXP(-460.0/TEMP)*O2 ";
  "    KALKPXY= 1.80E-14*EXP(-260.0/TEMP)*O2 ";
  "    KROPRIM = 2.50E-14*EXP(-300/TEMP) ";
  "    KCH3O2 = 1.03E-13*EXP(365/TEMP) ";
  "    K298CH3O2 = 3.5E-13 ";
  "    K14ISOM1 = 3.00E7*EXP(-5300/TEMP)	    ! ------------------------------------------------------------------- ";
  "    ! complex reactions ";
  "    ! ------------------------------------------------------------------- ";
  "    ! kfpan kbpan ";
  "    ! formation and decomposition of pan ";
  "    ! iupac 2001 (mcmv3.2) ";
  "    kc0     = 3.28E-28*M*(TEMP/300)**(-6.87) ";
  "    kci     = 1.125E-11*(TEMP/300)**(-1.105) ";
  "    krc     = kc0/kci ";
  "    fcc     = 0.30 ";
  "    nc      = 0.75-(1.27*LOG10(fcc)) ";
  "    fc      = 10**(LOG10(fcc)/(1.0+((LOG10(krc))/nc)**2.0)) ";
  "    KFPAN   = (kc0*kci)*fc/(kc0+kci) ";
  "    kd0     = 1.10E-05*M*EXP(-10100/TEMP) ";
  "    kdi     = 1.90E17*EXP(-14100/TEMP) ";
  "    krd     = kd0/kdi ";
  "    fcd     = 0.30 ";
  "    ncd     = 0.75-(1.27*LOG10(fcd)) ";
  "    fd      = 10.0**(LOG10(fcd)/(1.0+((LOG10(krd))/ncd)**2.0)) ";
  "    KBPAN   = (kd0*kdi)*fd/(kd0+kdi) ";
  "    KPPN0     = 1.7E-03*EXP(-11280/TEMP)*M";
  "    KPPNI     = 8.3E+16*EXP(-13940/TEMP)";
  "    KRPPN     = KPPN0/KPPNI";
  "    FCPPN     = 0.36";
  "    NCPPN     = 0.75-1.27*(LOG10(FCPPN))";
  "    FPPN      = 10**(LOG10(FCPPN)/(1.0+((LOG10(KRPPN))/NCPPN)**2.0))";
  "    KBPPN   = (KPPN0*KPPNI)*FCPPN/(KPPN0+KPPNI)";
  "    ! kmt01  : o        + no      = no2 ";
  "    ! iupac 2001 (mcmv3.2) ";
  "    k10     = 1.0E-31*M*(TEMP/300)**(-1.6) ";
  "    k1i     = 5.0E-11*(TEMP/300)**(0.3) ";
  "    kr1     = k10/k1i ";
  "    fc1     = 0.85 ";
  "    nc1     = 0.75-(1.27*LOG10(fc1)) ";
  "    f1      = 10.0**(LOG10(fc1)/(1.0+((LOG10(kr1)/nc1))**2.0)) ";
  "    KMT01   = (k10*k1i)*f1/(k10+k1i) ";
  "    ! kmt02  : o        + no2     = no3 ";
  "    ! iupac 2001 (mcmv3.2) ";
  "    k20     = 1.30E-31*M*(TEMP/300.0)**(-1.5) ";
  "    k2i     = 2.30E-11*(TEMP/300.0)**(0.24) ";
  "    kr2     = k20/k2i ";
  "    fc2     = 0.6 ";
  "    nc2     = 0.75-(1.27*LOG10(fc2)) ";
  "    f2      = 10.0**(LOG10(fc2)/(1.0+((LOG10(kr2)/nc2))**2.0)) ";
  "    KMT02   = (k20*k2i)*f2/(k20+k2i) ";
  "    ! kmt03  : no2      + no3     = n2o5 ";
  "    ! iupac 2006, mcmv3.2 ";
  "    k30     = 3.60E-30*M*(TEMP/300.0)**(-4.1)  ";
  "    k3i     = 1.90E-12*(TEMP/300.0)**(0.2) ";
  "    kr3     = k30/k3i ";
  "    fc3     = 0.35 ";
  "    nc3     = 0.75-(1.27*LOG10(fc3)) ";
  "    f3      = 10.0**(LOG10(fc3)/(1.0+((LOG10(kr3)/nc3))**2.0)) ";
  "    KMT03   = (k30*k3i)*f3/(k30+k3i) ";
  "    ! kmt04  : n2o5               = no2     + no3 ";
  "    ! iupac 2006, mcmv3.2 ";
  "    k40     = 1.30E-03*M*(TEMP/300.0)**(-3.5)*EXP(-11000.0/TEMP) ";
  "    k4i     = 9.70E14*(TEMP/300.0)**(0.1)*EXP(-11080.0/TEMP) ";
  "    kr4     = k40/k4i ";
  "    fc4     = 0.35 ";
  "    nc4     = 0.75-(1.27*LOG10(fc4)) ";
  "    f4      = 10.0**(LOG10(fc4)/(1+((LOG10(kr4)/nc4))**2.0)) ";
  "    KMT04   = (k40*k4i)*f4/(k40+k4i) ";
  "    ! kmt05  : oh       + co(+o2) = ho2     + co2 ";
  "    ! iupac 2006 ";
  "    KMT05  = 1.44E-13*(1+(M/4.2D+19)) ";
  "    ! kmt06  : ho2      + ho2     = h2o2    + o2 ";
  "    ! water enhancement factor ";
  "    ! iupac 1992 ";
  "    KMT06  = 1.0 + (1.40E-21*EXP(2200.0/TEMP)*H2O) ";
  "    ! kmt06  = 1.0 + (2.00E-25*numpy.exp(4670.0/temp)*h2o) ";
  "    ! S+R 2005 values ";
  "    ! kmt07  : oh       + no      = hono ";
  "    ! iupac 2006, mcmv3.2 ";
  "    k70     = 7.40E-31*M*(TEMP/300.0)**(-2.4) ";
  "    k7i     = 3.30E-11*(TEMP/300.0)**(-0.3) ";
  "    kr7     = k70/k7i ";
  "    fc7     = 0.81 ";
  "    nc7     = 0.75-(1.27*LOG10(fc7)) ";
  "    f7      = 10.0**(LOG10(fc7)/(1+((LOG10(kr7)/nc7))**2.0)) ";
  "    KMT07   = (k70*k7i)*f7/(k70+k7i) ";
  "    ! kmt08  : oh       + no2     = hno3 ";
  "    ! iupac 2006, mcmv3.2 ";
  "    k80     = 3.2E-30*M*(TEMP/300)**(-4.5) ";
  "    k8i     = 3.0E-11 ";
  "    kr8     = k80/k8i ";
  "    fc8     = 0.41 ";
  "    nc8     = 0.75-(1.27*LOG10(fc8)) ";
  "    f8      = 10.0**(LOG10(fc8)/(1.0+((LOG10(kr8)/nc8))**2.0)) ";
  "    KMT08   = (k80*k8i)*f8/(k80+k8i) ";
  "    ! kmt09  : ho2      + no2     = ho2no2 ";
  "    ! iupac 1997, mcmv3.2 ";
  "    k90     = 1.4E-31*M*(TEMP/300)**(-3.1) ";
  "    k9i     = 4.0E-12 ";
  "    kr9     = k90/k9i ";
  "    fc9     = 0.4 ";
  "    nc9     = 0.75-(1.27*LOG10(fc9)) ";
  "    f9      = 10.0**(LOG10(fc9)/(1.0+((LOG10(kr9)/nc9))**2.0)) ";
  "    KMT09   = (k90*k9i)*f9/(k90+k9i) ";
  "    ! kmt10  : ho2no2             = ho2     + no2 ";
  "    ! iupac 1997, mcmv3.2 ";
  "    k100     = 4.10E-05*M*EXP(-10650.0/TEMP) ";
  "    k10i     = 6.0E+15*EXP(-11170/TEMP) ";
  "    kr10     = k100/k10i ";
  "    fc10     = 0.4 ";
  "    nc10     = 0.75-(1.27*LOG10(fc10)) ";
  "    f10      = 10.0**(LOG10(fc10)/(1.0+((LOG10(kr10)/nc10))**2.0)) ";
  "    KMT10    = (k100*k10i)*f10/(k100+k10i) ";
  "    ! kmt11  : oh       + hno3    = h2o     + no3 ";
  "    ! iupac 2006, mcmv3.2 ";
  "    k1     = 2.40E-14*EXP(460.0/TEMP) ";
  "    k3     = 6.50E-34*EXP(1335.0/TEMP) ";
  "    k4     = 2.70E-17*EXP(2199.0/TEMP) ";
  "    k2     = (k3*M)/(1.0+(k3*M/k4)) ";
  "    KMT11  = k1 + k2 ";
  "    ! kmt12 iupac 2006, mcmv3.2 ";
  "    k120 = 2.5E-31*M*(TEMP/300)**(-2.6) ";
  "    k12i = 2.0E-12 ";
  "    kr12 = k120/k12i ";
  "    fc12 = 0.53 ";
  "    nc12 = 0.75-(1.27*LOG10(fc12)) ";
  "    f12  = 10.0**(LOG10(fc12)/(1.0+((LOG10(kr12)/nc12))**2.0)) ";
  "    KMT12    = (k120*k12i)*f12/(k120+k12i) ";
  "    ! kmt13  : ch3o2    + no2     = ch3o2no2 ";
  "    ! iupac 2006 ";
  "    k130     = 2.50E-30*((TEMP/300.0)**(-5.5))*M ";
  "    k13i     = 1.80E-11 ";
  "    kr13     = k130/k13i ";
  "    fc13     = 0.36 ";
  "    nc13     = 0.75-(1.27*LOG10(fc13)) ";
  "    f13      = 10.0**(LOG10(fc13)/(1.0+((LOG10(kr13)/nc13))**2.0)) ";
  "    KMT13    = (k130*k13i)*f13/(k130+k13i) ";
  "    ! kmt14  : ch3o2no2           = ch3o2   + no2 ";
  "    ! iupac 2006, mcmv3.2     ";
  "    k140     = 9.00E-05*EXP(-9690.0/TEMP)*M ";
  "    k14i     = 1.10E16*EXP(-10560.0/TEMP) ";
  "    kr14     = k140/k14i ";
  "    fc14     = 0.36 ";
  "    nc14     = 0.75-(1.27*LOG10(fc14)) ";
  "    f14      = 10.0**(LOG10(fc14)/(1.0+((LOG10(kr14)/nc14))**2.0)) ";
  "    KMT14    = (k140*k14i)*f14/(k140+k14i) ";
  "    ! kmt15 iupac 2006, mcmv3.2 ";
  "    k150 = 8.60E-29*((TEMP/300.0)**(-3.1))*M ";
  "    k15i = 9.00E-12*((TEMP/300.0)**(-0.85)) ";
  "    kr15 = k150/k15i ";
  "    fc15 = 0.48 ";
  "    nc15 = 0.75-(1.27*LOG10(fc15)) ";
  "    f15  = 10.0**(LOG10(fc15)/(1.0+((LOG10(kr15)/nc15))**2.0)) ";
  "    KMT15 = (k150*k15i)*f15/(k150+k15i) ";
  "    ! kmt16  :  oh  +  c3h6 ";
  "    ! iupac 2006 ";
  "    k160     = 8.00E-27*((TEMP/300.0)**(-3.5))*M ";
  "    k16i     = 3.00E-11*((TEMP/300.0)**(-1.0)) ";
  "    kr16     = k160/k16i ";
  "    fc16     = 0.5 ";
  "    nc16     = 0.75-(1.27*LOG10(fc16)) ";
  "    f16      = 10.0**(LOG10(fc16)/(1.0+((LOG10(kr16)/nc16))**2.0)) ";
  "    KMT16    = (k160*k16i)*f16/(k160+k16i) ";
  "    ! kmt17 iupac 2006 ";
  "    k170 = 5.00E-30*((TEMP/300.0)**(-1.5))*M ";
  "    k17i = 1.00E-12 ";
  "    kr17 = k170/k17i ";
  "    fc17 = (0.17*EXP(-51.0/TEMP))+EXP(-1.0*TEMP/204.0) ";
  "    nc17 = 0.75-(1.27*LOG10(fc17)) ";
  "    f17  = 10.0**(LOG10(fc17)/(1.0+((LOG10(kr17)/nc17))**2.0)) ";
  "    KMT17 = (k170*k17i)*f17/(k170+k17i) ";
  "    KMT18 = 9.5E-39*O2*EXP(5270.0/TEMP)/(1+7.5E-29*O2*EXP(5610.0/TEMP)) ";
  "    ! Explicitly calculating rates for each reaction "
].

(* Parse_eqn_file.py:1768-1769 *)
Definition fortran_end : list string := [
  "";
  "end subroutine"
].

(* The fixed part of the generated rate modules: the text of every statement
   the writer puts before the statements of the reactions, line by line.
   Comment lines and blank lines are left out.  Fortran: the PARAMETER
   declarations are read as assignments, the other declarations only as the
   list of declared names, and a line ended by & is joined with the next. *)
From Coq Require Import List String.
Import ListNotations.

(* Parse_eqn_file.py:896-1145: constants of the numba module *)
Definition numba_constants : list string := [
  "    M  = 2.55E+19  #Check this against pressure assumed in model"%string;
  "    N2 = 0.79*M"%string;
  "    O2 = 0.2095*M"%string;
  "    KRONO2    = 2.70E-12*numba_exp(360.0/temp)"%string;
  "    KRO2NO = 2.7E-12*numba_exp(360.0/temp) "%string;
  "    KRO2HO2   = 2.91E-13*numba_exp(1300.0/temp)"%string;
  "    KAPHO2    = 5.2E-13*numba_exp(980.0/temp)"%string;
  "    KAPNO = 7.5E-12*numba_exp(290.0/temp)"%string;
  "    KRO2NO3   = 2.3E-12"%string;
  "    KNO3AL    = 1.4E-12*numba_exp(-1860.0/temp)"%string;
  "    KDEC      = 1.00E+06"%string;
  "    KROSEC = 2.50E-14*numba_exp(-300.0/temp)"%string;
  "    KALKOXY=3.70E-14*numba_exp(-460.0/temp)*O2"%string;
  "    KALKPXY=1.80E-14*numba_exp(-260.0/temp)*O2"%string;
  "    KROPRIM = 2.50E-14*numba_exp(-300.0/temp)"%string;
  "    KCH3O2 = 1.03E-13*numba_exp(365.0/temp)"%string;
  "    K298CH3O2 = 3.5E-13"%string;
  "    K14ISOM1 = 3.00E7*numba_exp(-5300.0/temp)	    # -------------------------------------------------------------------"%string;
  "    kc0     = 3.28E-28*M*(temp/300.0)**(-6.87)"%string;
  "    kci     = 1.125E-11*(temp/300.0)**(-1.105)"%string;
  "    krc     = kc0/kci"%string;
  "    fcc     = 0.30"%string;
  "    nc      = 0.75-(1.27*numba_log10(fcc))"%string;
  "    fc      = 10**(numba_log10(fcc)/(1.0+((numba_log10(krc))/nc)**2.0))"%string;
  "    KFPAN   = (kc0*kci)*fc/(kc0+kci)"%string;
  "    kd0     = 1.10E-05*M*numba_exp(-10100.0/temp)"%string;
  "    kdi     = 1.90E+17*numba_exp(-14100.0/temp)"%string;
  "    krd     = kd0/kdi"%string;
  "    fcd     = 0.30"%string;
  "    ncd     = 0.75-(1.27*numba_log10(fcd))"%string;
  "    fd      = 10.0**(numba_log10(fcd)/(1.0+((numba_log10(krd))/ncd)**2.0))"%string;
  "    KBPAN   = (kd0*kdi)*fd/(kd0+kdi)"%string;
  "    KPPN0     = 1.7E-03*M*numba_exp(-11280.0/temp)"%string;
  "    KPPNI     = 8.3E+16*numba_exp(-13940.0/temp)"%string;
  "    KRPPN     = KPPN0/KPPNI"%string;
  "    FCPPN     = 0.36"%string;
  "    NCPPN     = 0.75-(1.27*numba_log10(fcd))"%string;
  "    FPPN      = 10.0**(numba_log10(fcd)/(1.0+((numba_log10(krd))/ncd)**2.0))"%string;
  "    KBPPN   = (KPPN0*KPPNI)*FCPPN/(KPPN0+KPPNI)"%string;
  "    k10     = 1.00E-31*M*(temp/300.0)**(-1.6)"%string;
  "    k1i     = 5.0E-11*(temp/300.0)**(0.3)"%string;
  "    kr1     = k10/k1i"%string;
  "    fc1     = 0.85"%string;
  "    nc1     = 0.75-(1.27*numba_log10(fc1))"%string;
  "    f1      = 10.0**(numba_log10(fc1)/(1.0+((numba_log10(kr1)/nc1))**2.0))"%string;
  "    KMT01   = (k10*k1i)*f1/(k10+k1i)"%string;
  "    k20     = 1.30E-31*M*(temp/300.0)**(-1.5)"%string;
  "    k2i     = 2.30E-11*(temp/300.0)**(0.24)"%string;
  "    kr2     = k20/k2i"%string;
  "    fc2     = 0.6"%string;
  "    nc2     = 0.75-(1.27*numba_log10(fc2))"%string;
  "    f2      = 10.0**(numba_log10(fc2)/(1.0+((numba_log10(kr2)/nc2))**2.0))"%string;
  "    KMT02   = (k20*k2i)*f2/(k20+k2i)"%string;
  "    k30     = 3.60E-30*M*(temp/300.0)**(-4.1)"%string;
  "    k3i     = 1.90E-12*(temp/300.0)**(0.2)"%string;
  "    kr3     = k30/k3i"%string;
  "    fc3     = 0.35"%string;
  "    nc3     = 0.75-(1.27*numba_log10(fc3))"%string;
  "    f3      = 10.0**(numba_log10(fc3)/(1.0+((numba_log10(kr3)/nc3))**2.0))"%string;
  "    KMT03   = (k30*k3i)*f3/(k30+k3i)"%string;
  "    k40     = 1.30E-03*M*(temp/300.0)**(-3.5)*numba_exp(-11000.0/temp)"%string;
  "    k4i     = 9.70E+14*(temp/300.0)**(0.1)*numba_exp(-11080.0/temp)"%string;
  "    kr4     = k40/k4i"%string;
  "    fc4     = 0.35"%string;
  "    nc4     = 0.75-(1.27*numba_log10(fc4))"%string;
  "    f4      = 10.0**(numba_log10(fc4)/(1+((numba_log10(kr4)/nc4))**2.0))"%string;
  "    KMT04   = (k40*k4i)*f4/(k40+k4i)"%string;
  "    KMT05  = 1.44E-13*(1.0 + (M/4.2E19))"%string;
  "    KMT06  = 1.0 + (1.40E-21*numba_exp(2200.0/temp)*H2O)"%string;
  "    k70     = 7.40E-31*M*(temp/300.0)**(-2.4)"%string;
  "    k7i     = 3.30E-11*(temp/300.0)**(-0.3)"%string;
  "    kr7     = k70/k7i"%string;
  "    fc7     = 0.81"%string;
  "    nc7     = 0.75-(1.27*numba_log10(fc7))"%string;
  "    f7      = 10.0**(numba_log10(fc7)/(1+((numba_log10(kr7)/nc7))**2.0))"%string;
  "    KMT07   = (k70*k7i)*f7/(k70+k7i)"%string;
  "    k80     = 3.2E-30*M*(temp/300.0)**(-4.5)"%string;
  "    k8i     = 3.0E-11"%string;
  "    kr8     = k80/k8i"%string;
  "    fc8     = 0.41"%string;
  "    nc8     = 0.75-(1.27*numba_log10(fc8))"%string;
  "    f8      = 10.0**(numba_log10(fc8)/(1.0+((numba_log10(kr8)/nc8))**2.0))"%string;
  "    KMT08   = (k80*k8i)*f8/(k80+k8i)"%string;
  "    k90     = 1.4E-31*M*(temp/300.0)**(-3.1)"%string;
  "    k9i     = 4.0E-12"%string;
  "    kr9     = k90/k9i"%string;
  "    fc9     = 0.4"%string;
  "    nc9     = 0.75-(1.27*numba_log10(fc9))"%string;
  "    f9      = 10.0**(numba_log10(fc9)/(1.0+((numba_log10(kr9)/nc9))**2.0))"%string;
  "    KMT09   = (k90*k9i)*f9/(k90+k9i)"%string;
  "    k100     = 4.10E-05*M*numba_exp(-10650.0/temp)"%string;
  "    k10i     = 6.0E+15*numba_exp(-11170.0/temp)"%string;
  "    kr10     = k100/k10i"%string;
  "    fc10     = 0.4"%string;
  "    nc10     = 0.75-(1.27*numba_log10(fc10))"%string;
  "    f10      = 10.0**(numba_log10(fc10)/(1.0+((numba_log10(kr10)/nc10))**2.0))"%string;
  "    KMT10    = (k100*k10i)*f10/(k100+k10i)"%string;
  "    k1     = 2.40E-14*numba_exp(460.0/temp)"%string;
  "    k3     = 6.50E-34*numba_exp(1335.0/temp)"%string;
  "    k4     = 2.70E-17*numba_exp(2199.0/temp)"%string;
  "    k2     = (k3*M)/(1.0+(k3*M/k4))"%string;
  "    KMT11  = k1 + k2"%string;
  "    k120 = 2.5E-31*((temp/300.0)**(-2.6))*M"%string;
  "    k12i = 2.0E-12"%string;
  "    kr12 = k120/k12i"%string;
  "    fc12 = 0.53"%string;
  "    nc12 = 0.75-(1.27*numba_log10(fc12))"%string;
  "    f12  = 10.0**(numba_log10(fc12)/(1.0+((numba_log10(kr12)/nc12))**2.0))"%string;
  "    KMT12    = (k120*k12i)*f12/(k120+k12i)"%string;
  "    k130     = 2.50E-30*((temp/300.0)**(-5.5))*M"%string;
  "    k13i     = 1.80E-11"%string;
  "    kr13     = k130/k13i"%string;
  "    fc13     = 0.36"%string;
  "    nc13     = 0.75-(1.27*numba_log10(fc13))"%string;
  "    f13      = 10.0**(numba_log10(fc13)/(1.0+((numba_log10(kr13)/nc13))**2.0))"%string;
  "    KMT13    = (k130*k13i)*f13/(k130+k13i)"%string;
  "    k140     = 9.00E-05*numba_exp(-9690.0/temp)*M"%string;
  "    k14i     = 1.10E+16*numba_exp(-10560.0/temp)"%string;
  "    kr14     = k140/k14i"%string;
  "    fc14     = 0.36"%string;
  "    nc14     = 0.75-(1.27*numba_log10(fc14))"%string;
  "    f14      = 10.0**(numba_log10(fc14)/(1.0+((numba_log10(kr14)/nc14))**2.0))"%string;
  "    KMT14    = (k140*k14i)*f14/(k140+k14i)"%string;
  "    k150 = 8.60E-29*((temp/300.0)**(-3.1))*M"%string;
  "    k15i = 9.00E-12*((temp/300.0)**(-0.85))"%string;
  "    kr15 = k150/k15i"%string;
  "    fc15 = 0.48"%string;
  "    nc15 = 0.75-(1.27*numba_log10(fc15))"%string;
  "    f15  = 10.0**(numba_log10(fc15)/(1.0+((numba_log10(kr15)/nc15))**2.0))"%string;
  "    KMT15 = (k150*k15i)*f15/(k150+k15i)"%string;
  "    k160     = 8.00E-27*((temp/300.0)**(-3.5))*M"%string;
  "    k16i     = 3.00E-11*((temp/300.0)**(-1.0))"%string;
  "    kr16     = k160/k16i"%string;
  "    fc16     = 0.5"%string;
  "    nc16     = 0.75-(1.27*numba_log10(fc16))"%string;
  "    f16      = 10.0**(numba_log10(fc16)/(1.0+((numba_log10(kr16)/nc16))**2.0))"%string;
  "    KMT16    = (k160*k16i)*f16/(k160+k16i)"%string;
  "    k170 = 5.00E-30*((temp/300.0)**(-1.5))*M"%string;
  "    k17i = 1.00E-12"%string;
  "    kr17 = k170/k17i"%string;
  "    fc17 = (0.17*numba_exp(-51./temp))+numba_exp(-1.0*temp/204.0)"%string;
  "    nc17 = 0.75-(1.27*numba_log10(fc17))"%string;
  "    f17  = 10.0**(numba_log10(fc17)/(1.0+((numba_log10(kr17)/nc17))**2.0))"%string;
  "    KMT17 = (k170*k17i)*f17/(k170+k17i)"%string;
  "    KMT18 = 9.5E-39*O2*numba_exp(5270.0/temp)/(1+7.5E-29*O2*numba_exp(5610.0/temp))"%string
].

(* Parse_eqn_file.py:1173-1219: position of the sun *)
Definition numba_zenith : list string := [
  "    pi = 4.0*numba_arctan(1.0) "%string;
  "    currentDayOfYear=150.0 "%string;
  "    latitude=51.51  "%string;
  "    longitude=0.13  "%string;
  "    cosx_threshold = 1.0E-30  "%string;
  "    theta = 2.0 * pi * (currentDayOfYear - 1.0) / 365.0 "%string;
  "    b0 =  0.006918 "%string;
  "    b1 = -0.399912 "%string;
  "    b2 =  0.070257 "%string;
  "    b3 = -0.006758 "%string;
  "    b4 =  0.000907 "%string;
  "    b5 = -0.002697 "%string;
  "    b6 =  0.001480 "%string;
  "    dec = b0 + b1 * numba_cos(theta) + b2 * numba_sin(theta) + b3 * numba_cos(2.0 * theta) + b4 * numba_sin(2.0 * theta) + b5 * numba_cos(3.0 * theta) + b6 * numba_sin(3.0 * theta) "%string;
  "    c0 = 0.000075 "%string;
  "    c1 = 0.001868 "%string;
  "    c2 = -0.032077 "%string;
  "    c3 = -0.014615 "%string;
  "    c4 = -0.040849 "%string;
  "    eqtime = c0 + c1 * numba_cos(theta) + c2 * numba_sin(theta) + c3 * numba_cos(2.0 * theta) + c4 * numba_sin(2.0 * theta) "%string;
  "    currentFracDay = currentDayOfYear - 1.0 + ( ttime / 86400.0 ) "%string;
  "    currentFracHour =  (currentFracDay - int(currentFracDay)) * 24.0 "%string;
  "    lha = pi * ((currentFracHour / 12.0) - (1.0 + longitude / 180.0)) + eqtime "%string;
  "    lat = latitude * pi / 180.0 "%string;
  "    sinld = numba_sin( lat ) * numba_sin( dec ) "%string;
  "    cosld = numba_cos( lat ) * numba_cos( dec ) "%string;
  "    cosx = numba_cos( lha ) * cosld + sinld "%string;
  "    if cosx <= cosx_threshold: "%string;
  "        cosx = 0.0 "%string;
  "        secx = 1.0E+20 "%string;
  "    else: "%string;
  "        secx = 1.0 / cosx "%string
].

(* Parse_eqn_file.py:1224-1259: photolysis rates *)
Definition numba_photolysis : list string := [
  "    J[1]=6.073E-05*cosx**(1.743)*numba_exp(-1.0*0.474*secx)"%string;
  "    J[2]=4.775E-04*cosx**(0.298)*numba_exp(-1.0*0.080*secx)"%string;
  "    J[3]=1.041E-05*cosx**(0.723)*numba_exp(-1.0*0.279*secx)"%string;
  "    J[4]=1.165E-02*cosx**(0.244)*numba_exp(-1.0*0.267*secx)"%string;
  "    J[5]=2.485E-02*cosx**(0.168)*numba_exp(-1.0*0.108*secx)"%string;
  "    J[6]=1.747E-01*cosx**(0.155)*numba_exp(-1.0*0.125*secx)"%string;
  "    J[7]=2.644E-03*cosx**(0.261)*numba_exp(-1.0*0.288*secx)"%string;
  "    J[8]=9.312E-07*cosx**(1.230)*numba_exp(-1.0*0.307*secx)"%string;
  "    J[11]=4.642E-05*cosx**(0.762)*numba_exp(-1.0*0.353*secx)"%string;
  "    J[12]=6.853E-05*cosx**(0.477)*numba_exp(-1.0*0.323*secx)"%string;
  "    J[13]=7.344E-06*cosx**(1.202)*numba_exp(-1.0*0.417*secx)"%string;
  "    J[14]=2.879E-05*cosx**(1.067)*numba_exp(-1.0*0.358*secx)"%string;
  "    J[15]=2.792E-05*cosx**(0.805)*numba_exp(-1.0*0.338*secx)"%string;
  "    J[16]=1.675E-05*cosx**(0.805)*numba_exp(-1.0*0.338*secx)"%string;
  "    J[17]=7.914E-05*cosx**(0.764)*numba_exp(-1.0*0.364*secx)"%string;
  "    J[18]=1.482E-06*cosx**(0.396)*numba_exp(-1.0*0.298*secx)"%string;
  "    J[19]=1.482E-05*cosx**(0.396)*numba_exp(-1.0*0.298*secx)"%string;
  "    J[20]=7.600E-04*cosx**(0.396)*numba_exp(-1.0*0.298*secx)"%string;
  "    J[21]=7.992E-07*cosx**(1.578)*numba_exp(-1.0*0.271*secx)"%string;
  "    J[22]=5.804E-06*cosx**(1.092)*numba_exp(-1.0*0.377*secx)"%string;
  "    J[23]=2.4246E-06*cosx**(0.395)*numba_exp(-1.0*0.296*secx)"%string;
  "    J[24]=2.424E-06*cosx**(0.395)*numba_exp(-1.0*0.296*secx)"%string;
  "    J[31]=6.845E-05*cosx**(0.130)*numba_exp(-1.0*0.201*secx)"%string;
  "    J[32]=1.032E-05*cosx**(0.130)*numba_exp(-1.0*0.201*secx)"%string;
  "    J[33]=3.802E-05*cosx**(0.644)*numba_exp(-1.0*0.312*secx)"%string;
  "    J[34]=1.537E-04*cosx**(0.170)*numba_exp(-1.0*0.208*secx)"%string;
  "    J[35]=3.326E-04*cosx**(0.148)*numba_exp(-1.0*0.215*secx)"%string;
  "    J[41]=7.649E-06*cosx**(0.682)*numba_exp(-1.0*0.279*secx)"%string;
  "    J[51]=1.588E-06*cosx**(1.154)*numba_exp(-1.0*0.318*secx)"%string;
  "    J[52]=1.907E-06*cosx**(1.244)*numba_exp(-1.0*0.335*secx)"%string;
  "    J[53]=2.485E-06*cosx**(1.196)*numba_exp(-1.0*0.328*secx)"%string;
  "    J[54]=4.095E-06*cosx**(1.111)*numba_exp(-1.0*0.316*secx)"%string;
  "    J[55]=1.135E-05*cosx**(0.974)*numba_exp(-1.0*0.309*secx)"%string;
  "    J[56]=4.365E-05*cosx**(1.089)*numba_exp(-1.0*0.323*secx)"%string;
  "    J[57]=3.363E-06*cosx**(1.296)*numba_exp(-1.0*0.322*secx)"%string;
  "    J[61]=7.537E-04*cosx**(0.499)*numba_exp(-1.0*0.266*secx)"%string
].

(* Parse_eqn_file.py:1260-1260: the name TEMP used by rate texts *)
Definition numba_tail : list string := [
  "    TEMP=temp"%string
].

Definition numba_body : list string := numba_constants ++ numba_zenith ++ numba_photolysis ++ numba_tail.

(* Parse_eqn_file.py:1356-1373: PARAMETER declarations (N2 and O2 as formatted with %E) *)
Definition fortran_parameters : list string := [
  "    cosx_threshold = 1.0E-30"%string;
  "    M  = 2.55E+19"%string;
  "    N2 = 2.014500E+19"%string;
  "    O2 = 5.342250E+18"%string
].

(* Parse_eqn_file.py:1383-1431: position of the sun *)
Definition fortran_zenith : list string := [
  "    pi = 4.0*ATAN(1.0)  "%string;
  "    currentDayOfYear=150.0 "%string;
  "    latitude=51.51  "%string;
  "    longitude=0.13  "%string;
  "    theta = 2.0 * pi * (currentDayOfYear - 1.0) / 365.0  "%string;
  "    b0 =  0.006918  "%string;
  "    b1 = -0.399912 "%string;
  "    b2 =  0.070257 "%string;
  "    b3 = -0.006758 "%string;
  "    b4 =  0.000907 "%string;
  "    b5 = -0.002697 "%string;
  "    b6 =  0.001480 "%string;
  "    dec = b0 + b1 * cos(theta) + b2 * sin(theta) + b3 * cos(2.0 * theta) + b4 * sin(2.0 * theta) + b5 * cos(3.0 * theta) + b6 * sin(3.0 * theta)"%string;
  "    c0 = 0.000075 "%string;
  "    c1 = 0.001868 "%string;
  "    c2 = -0.032077 "%string;
  "    c3 = -0.014615 "%string;
  "    c4 = -0.040849 "%string;
  "    eqtime = c0 + c1 * cos(theta) + c2 * sin(theta) + c3 * cos(2.0 * theta) + c4 * sin(2.0 * theta)"%string;
  "    currentFracDay = currentDayOfYear - 1.0 + ( ttime / 86400.0 ) "%string;
  "    currentFracHour =  (currentFracDay - floor(currentFracDay)) * 24.0 "%string;
  "    lha = pi * ((currentFracHour / 12.0) - (1.0 + longitude / 180.0)) + eqtime "%string;
  "    lat = latitude * pi / 180.0 "%string;
  "    sinld = sin( lat ) * sin( dec ) "%string;
  "    cosld = cos( lat ) * cos( dec ) "%string;
  "    cosx = cos( lha ) * cosld + sinld "%string;
  "    if ( cosx <= cosx_threshold ) then "%string;
  "      cosx = 0.0 "%string;
  "     secx = 1.0E+20 "%string;
  "    else "%string;
  "      secx = 1.0 / cosx "%string;
  "    end if "%string
].

(* Parse_eqn_file.py:1433-1468: photolysis rates *)
Definition fortran_photolysis : list string := [
  "    J(1)=6.073E-05*cosx**(1.743)*EXP(-1.0*0.474*secx)"%string;
  "    J(2)=4.775E-04*cosx**(0.298)*EXP(-1.0*0.080*secx)"%string;
  "    J(3)=1.041E-05*cosx**(0.723)*EXP(-1.0*0.279*secx)"%string;
  "    J(4)=1.165E-02*cosx**(0.244)*EXP(-1.0*0.267*secx)"%string;
  "    J(5)=2.485E-02*cosx**(0.168)*EXP(-1.0*0.108*secx)"%string;
  "    J(6)=1.747E-01*cosx**(0.155)*EXP(-1.0*0.125*secx)"%string;
  "    J(7)=2.644E-03*cosx**(0.261)*EXP(-1.0*0.288*secx)"%string;
  "    J(8)=9.312E-07*cosx**(1.230)*EXP(-1.0*0.307*secx)"%string;
  "    J(11)=4.642E-05*cosx**(0.762)*EXP(-1.0*0.353*secx)"%string;
  "    J(12)=6.853E-05*cosx**(0.477)*EXP(-1.0*0.323*secx)"%string;
  "    J(13)=7.344E-06*cosx**(1.202)*EXP(-1.0*0.417*secx)"%string;
  "    J(14)=2.879E-05*cosx**(1.067)*EXP(-1.0*0.358*secx)"%string;
  "    J(15)=2.792E-05*cosx**(0.805)*EXP(-1.0*0.338*secx)"%string;
  "    J(16)=1.675E-05*cosx**(0.805)*EXP(-1.0*0.338*secx)"%string;
  "    J(17)=7.914E-05*cosx**(0.764)*EXP(-1.0*0.364*secx)"%string;
  "    J(18)=1.482E-06*cosx**(0.396)*EXP(-1.0*0.298*secx)"%string;
  "    J(19)=1.482E-05*cosx**(0.396)*EXP(-1.0*0.298*secx)"%string;
  "    J(20)=7.600E-04*cosx**(0.396)*EXP(-1.0*0.298*secx)"%string;
  "    J(21)=7.992E-07*cosx**(1.578)*EXP(-1.0*0.271*secx)"%string;
  "    J(22)=5.804E-06*cosx**(1.092)*EXP(-1.0*0.377*secx)"%string;
  "    J(23)=2.4246E-06*cosx**(0.395)*EXP(-1.0*0.296*secx)"%string;
  "    J(24)=2.424E-06*cosx**(0.395)*EXP(-1.0*0.296*secx)"%string;
  "    J(31)=6.845E-05*cosx**(0.130)*EXP(-1.0*0.201*secx)"%string;
  "    J(32)=1.032E-05*cosx**(0.130)*EXP(-1.0*0.201*secx)"%string;
  "    J(33)=3.802E-05*cosx**(0.644)*EXP(-1.0*0.312*secx)"%string;
  "    J(34)=1.537E-04*cosx**(0.170)*EXP(-1.0*0.208*secx)"%string;
  "    J(35)=3.326E-04*cosx**(0.148)*EXP(-1.0*0.215*secx)"%string;
  "    J(41)=7.649E-06*cosx**(0.682)*EXP(-1.0*0.279*secx)"%string;
  "    J(51)=1.588E-06*cosx**(1.154)*EXP(-1.0*0.318*secx)"%string;
  "    J(52)=1.907E-06*cosx**(1.244)*EXP(-1.0*0.335*secx)"%string;
  "    J(53)=2.485E-06*cosx**(1.196)*EXP(-1.0*0.328*secx)"%string;
  "    J(54)=4.095E-06*cosx**(1.111)*EXP(-1.0*0.316*secx)"%string;
  "    J(55)=1.135E-05*cosx**(0.974)*EXP(-1.0*0.309*secx)"%string;
  "    J(56)=4.365E-05*cosx**(1.089)*EXP(-1.0*0.323*secx)"%string;
  "    J(57)=3.363E-06*cosx**(1.296)*EXP(-1.0*0.322*secx)"%string;
  "    J(61)=7.537E-04*cosx**(0.499)*EXP(-1.0*0.266*secx)"%string
].

(* Parse_eqn_file.py:1472-1738: constants *)
Definition fortran_constants : list string := [
  "    KRONO2    = 2.7E-12*EXP(360/TEMP) "%string;
  "    KRO2NO = 2.7E-12*EXP(360.0/TEMP) "%string;
  "    KRO2HO2   = 2.91E-13*EXP(1300/TEMP)  "%string;
  "    KAPHO2    = 5.2E-13*EXP(980/TEMP)	 "%string;
  "    KAPNO = 7.5E-12*EXP(290/TEMP)	 "%string;
  "    KRO2NO3   = 2.3E-12	 "%string;
  "    KNO3AL    = 1.4E-12*EXP(-1860/TEMP) "%string;
  "    KDEC      = 1.00E06 "%string;
  "    KROSEC = 2.50E-14*EXP(-300/TEMP) "%string;
  "    KALKOXY= 3.70E-14*EXP(-460.0/TEMP)*O2 "%string;
  "    KALKPXY= 1.80E-14*EXP(-260.0/TEMP)*O2 "%string;
  "    KROPRIM = 2.50E-14*EXP(-300/TEMP) "%string;
  "    KCH3O2 = 1.03E-13*EXP(365/TEMP) "%string;
  "    K298CH3O2 = 3.5E-13 "%string;
  "    K14ISOM1 = 3.00E7*EXP(-5300/TEMP)	    ! ------------------------------------------------------------------- "%string;
  "    kc0     = 3.28E-28*M*(TEMP/300)**(-6.87) "%string;
  "    kci     = 1.125E-11*(TEMP/300)**(-1.105) "%string;
  "    krc     = kc0/kci "%string;
  "    fcc     = 0.30 "%string;
  "    nc      = 0.75-(1.27*LOG10(fcc)) "%string;
  "    fc      = 10**(LOG10(fcc)/(1.0+((LOG10(krc))/nc)**2.0)) "%string;
  "    KFPAN   = (kc0*kci)*fc/(kc0+kci) "%string;
  "    kd0     = 1.10E-05*M*EXP(-10100/TEMP) "%string;
  "    kdi     = 1.90E17*EXP(-14100/TEMP) "%string;
  "    krd     = kd0/kdi "%string;
  "    fcd     = 0.30 "%string;
  "    ncd     = 0.75-(1.27*LOG10(fcd)) "%string;
  "    fd      = 10.0**(LOG10(fcd)/(1.0+((LOG10(krd))/ncd)**2.0)) "%string;
  "    KBPAN   = (kd0*kdi)*fd/(kd0+kdi) "%string;
  "    KPPN0     = 1.7E-03*EXP(-11280/TEMP)*M"%string;
  "    KPPNI     = 8.3E+16*EXP(-13940/TEMP)"%string;
  "    KRPPN     = KPPN0/KPPNI"%string;
  "    FCPPN     = 0.36"%string;
  "    NCPPN     = 0.75-1.27*(LOG10(FCPPN))"%string;
  "    FPPN      = 10**(LOG10(FCPPN)/(1.0+((LOG10(KRPPN))/NCPPN)**2.0))"%string;
  "    KBPPN   = (KPPN0*KPPNI)*FCPPN/(KPPN0+KPPNI)"%string;
  "    k10     = 1.0E-31*M*(TEMP/300)**(-1.6) "%string;
  "    k1i     = 5.0E-11*(TEMP/300)**(0.3) "%string;
  "    kr1     = k10/k1i "%string;
  "    fc1     = 0.85 "%string;
  "    nc1     = 0.75-(1.27*LOG10(fc1)) "%string;
  "    f1      = 10.0**(LOG10(fc1)/(1.0+((LOG10(kr1)/nc1))**2.0)) "%string;
  "    KMT01   = (k10*k1i)*f1/(k10+k1i) "%string;
  "    k20     = 1.30E-31*M*(TEMP/300.0)**(-1.5) "%string;
  "    k2i     = 2.30E-11*(TEMP/300.0)**(0.24) "%string;
  "    kr2     = k20/k2i "%string;
  "    fc2     = 0.6 "%string;
  "    nc2     = 0.75-(1.27*LOG10(fc2)) "%string;
  "    f2      = 10.0**(LOG10(fc2)/(1.0+((LOG10(kr2)/nc2))**2.0)) "%string;
  "    KMT02   = (k20*k2i)*f2/(k20+k2i) "%string;
  "    k30     = 3.60E-30*M*(TEMP/300.0)**(-4.1)  "%string;
  "    k3i     = 1.90E-12*(TEMP/300.0)**(0.2) "%string;
  "    kr3     = k30/k3i "%string;
  "    fc3     = 0.35 "%string;
  "    nc3     = 0.75-(1.27*LOG10(fc3)) "%string;
  "    f3      = 10.0**(LOG10(fc3)/(1.0+((LOG10(kr3)/nc3))**2.0)) "%string;
  "    KMT03   = (k30*k3i)*f3/(k30+k3i) "%string;
  "    k40     = 1.30E-03*M*(TEMP/300.0)**(-3.5)*EXP(-11000.0/TEMP) "%string;
  "    k4i     = 9.70E14*(TEMP/300.0)**(0.1)*EXP(-11080.0/TEMP) "%string;
  "    kr4     = k40/k4i "%string;
  "    fc4     = 0.35 "%string;
  "    nc4     = 0.75-(1.27*LOG10(fc4)) "%string;
  "    f4      = 10.0**(LOG10(fc4)/(1+((LOG10(kr4)/nc4))**2.0)) "%string;
  "    KMT04   = (k40*k4i)*f4/(k40+k4i) "%string;
  "    KMT05  = 1.44E-13*(1+(M/4.2D+19)) "%string;
  "    KMT06  = 1.0 + (1.40E-21*EXP(2200.0/TEMP)*H2O) "%string;
  "    k70     = 7.40E-31*M*(TEMP/300.0)**(-2.4) "%string;
  "    k7i     = 3.30E-11*(TEMP/300.0)**(-0.3) "%string;
  "    kr7     = k70/k7i "%string;
  "    fc7     = 0.81 "%string;
  "    nc7     = 0.75-(1.27*LOG10(fc7)) "%string;
  "    f7      = 10.0**(LOG10(fc7)/(1+((LOG10(kr7)/nc7))**2.0)) "%string;
  "    KMT07   = (k70*k7i)*f7/(k70+k7i) "%string;
  "    k80     = 3.2E-30*M*(TEMP/300)**(-4.5) "%string;
  "    k8i     = 3.0E-11 "%string;
  "    kr8     = k80/k8i "%string;
  "    fc8     = 0.41 "%string;
  "    nc8     = 0.75-(1.27*LOG10(fc8)) "%string;
  "    f8      = 10.0**(LOG10(fc8)/(1.0+((LOG10(kr8)/nc8))**2.0)) "%string;
  "    KMT08   = (k80*k8i)*f8/(k80+k8i) "%string;
  "    k90     = 1.4E-31*M*(TEMP/300)**(-3.1) "%string;
  "    k9i     = 4.0E-12 "%string;
  "    kr9     = k90/k9i "%string;
  "    fc9     = 0.4 "%string;
  "    nc9     = 0.75-(1.27*LOG10(fc9)) "%string;
  "    f9      = 10.0**(LOG10(fc9)/(1.0+((LOG10(kr9)/nc9))**2.0)) "%string;
  "    KMT09   = (k90*k9i)*f9/(k90+k9i) "%string;
  "    k100     = 4.10E-05*M*EXP(-10650.0/TEMP) "%string;
  "    k10i     = 6.0E+15*EXP(-11170/TEMP) "%string;
  "    kr10     = k100/k10i "%string;
  "    fc10     = 0.4 "%string;
  "    nc10     = 0.75-(1.27*LOG10(fc10)) "%string;
  "    f10      = 10.0**(LOG10(fc10)/(1.0+((LOG10(kr10)/nc10))**2.0)) "%string;
  "    KMT10    = (k100*k10i)*f10/(k100+k10i) "%string;
  "    k1     = 2.40E-14*EXP(460.0/TEMP) "%string;
  "    k3     = 6.50E-34*EXP(1335.0/TEMP) "%string;
  "    k4     = 2.70E-17*EXP(2199.0/TEMP) "%string;
  "    k2     = (k3*M)/(1.0+(k3*M/k4)) "%string;
  "    KMT11  = k1 + k2 "%string;
  "    k120 = 2.5E-31*M*(TEMP/300)**(-2.6) "%string;
  "    k12i = 2.0E-12 "%string;
  "    kr12 = k120/k12i "%string;
  "    fc12 = 0.53 "%string;
  "    nc12 = 0.75-(1.27*LOG10(fc12)) "%string;
  "    f12  = 10.0**(LOG10(fc12)/(1.0+((LOG10(kr12)/nc12))**2.0)) "%string;
  "    KMT12    = (k120*k12i)*f12/(k120+k12i) "%string;
  "    k130     = 2.50E-30*((TEMP/300.0)**(-5.5))*M "%string;
  "    k13i     = 1.80E-11 "%string;
  "    kr13     = k130/k13i "%string;
  "    fc13     = 0.36 "%string;
  "    nc13     = 0.75-(1.27*LOG10(fc13)) "%string;
  "    f13      = 10.0**(LOG10(fc13)/(1.0+((LOG10(kr13)/nc13))**2.0)) "%string;
  "    KMT13    = (k130*k13i)*f13/(k130+k13i) "%string;
  "    k140     = 9.00E-05*EXP(-9690.0/TEMP)*M "%string;
  "    k14i     = 1.10E16*EXP(-10560.0/TEMP) "%string;
  "    kr14     = k140/k14i "%string;
  "    fc14     = 0.36 "%string;
  "    nc14     = 0.75-(1.27*LOG10(fc14)) "%string;
  "    f14      = 10.0**(LOG10(fc14)/(1.0+((LOG10(kr14)/nc14))**2.0)) "%string;
  "    KMT14    = (k140*k14i)*f14/(k140+k14i) "%string;
  "    k150 = 8.60E-29*((TEMP/300.0)**(-3.1))*M "%string;
  "    k15i = 9.00E-12*((TEMP/300.0)**(-0.85)) "%string;
  "    kr15 = k150/k15i "%string;
  "    fc15 = 0.48 "%string;
  "    nc15 = 0.75-(1.27*LOG10(fc15)) "%string;
  "    f15  = 10.0**(LOG10(fc15)/(1.0+((LOG10(kr15)/nc15))**2.0)) "%string;
  "    KMT15 = (k150*k15i)*f15/(k150+k15i) "%string;
  "    k160     = 8.00E-27*((TEMP/300.0)**(-3.5))*M "%string;
  "    k16i     = 3.00E-11*((TEMP/300.0)**(-1.0)) "%string;
  "    kr16     = k160/k16i "%string;
  "    fc16     = 0.5 "%string;
  "    nc16     = 0.75-(1.27*LOG10(fc16)) "%string;
  "    f16      = 10.0**(LOG10(fc16)/(1.0+((LOG10(kr16)/nc16))**2.0)) "%string;
  "    KMT16    = (k160*k16i)*f16/(k160+k16i) "%string;
  "    k170 = 5.00E-30*((TEMP/300.0)**(-1.5))*M "%string;
  "    k17i = 1.00E-12 "%string;
  "    kr17 = k170/k17i "%string;
  "    fc17 = (0.17*EXP(-51.0/TEMP))+EXP(-1.0*TEMP/204.0) "%string;
  "    nc17 = 0.75-(1.27*LOG10(fc17)) "%string;
  "    f17  = 10.0**(LOG10(fc17)/(1.0+((LOG10(kr17)/nc17))**2.0)) "%string;
  "    KMT17 = (k170*k17i)*f17/(k170+k17i) "%string;
  "    KMT18 = 9.5E-39*O2*EXP(5270.0/TEMP)/(1+7.5E-29*O2*EXP(5610.0/TEMP)) "%string
].

Definition fortran_body : list string := fortran_parameters ++ fortran_zenith ++ fortran_photolysis ++ fortran_constants.

(* Parse_eqn_file.py:1309-1390: the names declared in the subroutine *)
Definition fortran_declared : list string := [
  "RO2"%string;
  "H2O"%string;
  "TEMP"%string;
  "rate_values"%string;
  "KRONO2"%string;
  "KRO2HO2"%string;
  "KAPHO2"%string;
  "KAPNO"%string;
  "KRO2NO3"%string;
  "KNO3AL"%string;
  "KDEC"%string;
  "KROSEC"%string;
  "KALKOXY"%string;
  "KALKPXY"%string;
  "kc0"%string;
  "kci"%string;
  "krc"%string;
  "nc"%string;
  "fc"%string;
  "fcc"%string;
  "KFPAN"%string;
  "kd0"%string;
  "kdi"%string;
  "krd"%string;
  "fcd"%string;
  "ncd"%string;
  "fd"%string;
  "KBPAN"%string;
  "k10"%string;
  "k1i"%string;
  "kr1"%string;
  "fc1"%string;
  "nc1"%string;
  "f1"%string;
  "KMT01"%string;
  "k20"%string;
  "k2i"%string;
  "kr2"%string;
  "fc2"%string;
  "nc2"%string;
  "f2"%string;
  "KMT02"%string;
  "k30"%string;
  "k3i"%string;
  "kr3"%string;
  "fc3"%string;
  "nc3"%string;
  "f3"%string;
  "KMT03"%string;
  "k40"%string;
  "k4i"%string;
  "kr4"%string;
  "fc4"%string;
  "nc4"%string;
  "f4"%string;
  "KMT04"%string;
  "KMT05"%string;
  "KMT06"%string;
  "k70"%string;
  "k7i"%string;
  "kr7"%string;
  "fc7"%string;
  "nc7"%string;
  "f7"%string;
  "KMT07"%string;
  "k80"%string;
  "k8i"%string;
  "kr8"%string;
  "fc8"%string;
  "nc8"%string;
  "f8"%string;
  "KMT08"%string;
  "k90"%string;
  "k9i"%string;
  "kr9"%string;
  "fc9"%string;
  "nc9"%string;
  "f9"%string;
  "KMT09"%string;
  "k100"%string;
  "k10i"%string;
  "kr10"%string;
  "fc10"%string;
  "nc10"%string;
  "f10"%string;
  "KMT10"%string;
  "k1"%string;
  "k3"%string;
  "k4"%string;
  "k2"%string;
  "KMT11"%string;
  "k120"%string;
  "k12i"%string;
  "kr12"%string;
  "fc12"%string;
  "nc12"%string;
  "f12"%string;
  "KMT12"%string;
  "k130"%string;
  "k13i"%string;
  "kr13"%string;
  "fc13"%string;
  "nc13"%string;
  "f13"%string;
  "KMT13"%string;
  "k140"%string;
  "k14i"%string;
  "kr14"%string;
  "fc14"%string;
  "nc14"%string;
  "f14"%string;
  "KMT14"%string;
  "k150"%string;
  "k15i"%string;
  "kr15"%string;
  "fc15"%string;
  "nc15"%string;
  "f15"%string;
  "KMT15"%string;
  "k160"%string;
  "k16i"%string;
  "kr16"%string;
  "fc16"%string;
  "nc16"%string;
  "f16"%string;
  "KMT16"%string;
  "k170"%string;
  "k17i"%string;
  "kr17"%string;
  "fc17"%string;
  "nc17"%string;
  "f17"%string;
  "KMT17"%string;
  "KRO2NO"%string;
  "K14ISOM1"%string;
  "KROPRIM"%string;
  "KCH3O2"%string;
  "K298CH3O2"%string;
  "KMT18"%string;
  "KPPN0"%string;
  "KPPNI"%string;
  "KRPPN"%string;
  "FCPPN"%string;
  "NCPPN"%string;
  "FPPN"%string;
  "KBPPN"%string;
  "b0"%string;
  "b1"%string;
  "b2"%string;
  "b3"%string;
  "b4"%string;
  "b5"%string;
  "b6"%string;
  "currentDayOfYear"%string;
  "c0"%string;
  "c1"%string;
  "c2"%string;
  "c3"%string;
  "c4"%string;
  "currentFracDay"%string;
  "currentFracHour"%string;
  "eqtime"%string;
  "latitude"%string;
  "longitude"%string;
  "cosx_threshold"%string;
  "ttime"%string;
  "theta"%string;
  "secx"%string;
  "cosx"%string;
  "lat"%string;
  "pi"%string;
  "radian"%string;
  "dec"%string;
  "lha"%string;
  "sinld"%string;
  "cosld"%string;
  "J"%string;
  "M"%string;
  "N2"%string;
  "O2"%string
].

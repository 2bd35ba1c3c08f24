(** Generated by tools/gen_database.py from pyTMD/data/database.json: the 78
    built-in model definitions, in file order. *)
From Coq Require Import String List QArith.
From Verif Require Import ValueBase.
Import ListNotations.
Open Scope string_scope.
Open Scope Q_scope.

Definition builtin_current : list (string * list (string * val)) :=
  [
   ("AODTM-5",
    [("format", VStr "OTIS");
     ("grid_file", VStr "aodtm5_tmd/grid_Arc5km");
     ("model_file", VDict [("u", VStr "aodtm5_tmd/UV0_Arc5km")]);
     ("name", VStr "AODTM-5");
     ("projection", VDict [("R", VNum (63999385716113 # 10000000)); ("lat_0", VNum (90 # 1)); ("lon_0", VNum (270 # 1)); ("proj", VStr "aeqd"); ("type", VStr "crs"); ("units", VStr "km"); ("x_0", VNum (0 # 1)); ("y_0", VNum (0 # 1))]);
     ("reference", VStr "https://www.esr.org/research/polar-tide-models/list-of-polar-tide-models/aodtm-5/");
     ("type", VList [VStr "u"; VStr "v"])]);
   ("AOTIM-5",
    [("format", VStr "OTIS");
     ("grid_file", VStr "aotim5_tmd/grid_Arc5km");
     ("model_file", VDict [("u", VStr "aotim5_tmd/UV_Arc5km")]);
     ("name", VStr "AOTIM-5");
     ("projection", VDict [("R", VNum (63999385716113 # 10000000)); ("lat_0", VNum (90 # 1)); ("lon_0", VNum (270 # 1)); ("proj", VStr "aeqd"); ("type", VStr "crs"); ("units", VStr "km"); ("x_0", VNum (0 # 1)); ("y_0", VNum (0 # 1))]);
     ("reference", VStr "https://www.esr.org/research/polar-tide-models/list-of-polar-tide-models/aotim-5/");
     ("type", VList [VStr "u"; VStr "v"])]);
   ("AOTIM-5-2018",
    [("format", VStr "OTIS");
     ("grid_file", VStr "Arc5km2018/grid_Arc5km2018");
     ("model_file", VDict [("u", VStr "Arc5km2018/UV_Arc5km2018")]);
     ("name", VStr "AOTIM-5-2018");
     ("projection", VDict [("R", VNum (63999385716113 # 10000000)); ("lat_0", VNum (90 # 1)); ("lon_0", VNum (270 # 1)); ("proj", VStr "aeqd"); ("type", VStr "crs"); ("units", VStr "km"); ("x_0", VNum (0 # 1)); ("y_0", VNum (0 # 1))]);
     ("reference", VStr "https://www.esr.org/research/polar-tide-models/list-of-polar-tide-models/aotim-5/");
     ("type", VList [VStr "u"; VStr "v"]);
     ("version", VStr "2018")]);
   ("Arc2kmTM",
    [("format", VStr "OTIS");
     ("grid_file", VStr "Arc2kmTM/grid_Arc2kmTM_v1");
     ("model_file", VDict [("u", VStr "Arc2kmTM/UV_Arc2kmTM_v1")]);
     ("name", VStr "Arc2kmTM");
     ("projection", VDict [("datum", VStr "WGS84"); ("lat_0", VNum (90 # 1)); ("lat_ts", VNum (70 # 1)); ("lon_0", VNum ((-45) # 1)); ("proj", VStr "stere"); ("type", VStr "crs"); ("units", VStr "km"); ("x_0", VNum (0 # 1)); ("y_0", VNum (0 # 1))]);
     ("reference", VStr "https://doi.org/10.18739/A2D21RK6K");
     ("type", VList [VStr "u"; VStr "v"]);
     ("version", VStr "v1")]);
   ("CATS0201",
    [("format", VStr "OTIS");
     ("grid_file", VStr "cats0201_tmd/grid_CATS");
     ("model_file", VDict [("u", VStr "cats0201_tmd/UV0_CATS02_01")]);
     ("name", VStr "CATS0201");
     ("projection", VStr "EPSG:4326");
     ("reference", VStr "https://mail.esr.org/polar_tide_models/Model_CATS0201.html");
     ("type", VList [VStr "u"; VStr "v"])]);
   ("CATS2008",
    [("format", VStr "OTIS");
     ("grid_file", VStr "CATS2008/grid_CATS2008");
     ("model_file", VDict [("u", VStr "CATS2008/uv.CATS2008.out")]);
     ("name", VStr "CATS2008");
     ("projection", VDict [("datum", VStr "WGS84"); ("lat_0", VNum ((-90) # 1)); ("lat_ts", VNum ((-71) # 1)); ("lon_0", VNum ((-70) # 1)); ("proj", VStr "stere"); ("type", VStr "crs"); ("units", VStr "km"); ("x_0", VNum (0 # 1)); ("y_0", VNum (0 # 1))]);
     ("reference", VStr "https://doi.org/10.15784/601235");
     ("type", VList [VStr "u"; VStr "v"])]);
   ("CATS2008-v2023",
    [("format", VStr "TMD3");
     ("grid_file", VStr "CATS2008_v2023/CATS2008_v2023.nc");
     ("model_file", VDict [("u", VStr "CATS2008_v2023/CATS2008_v2023.nc")]);
     ("name", VStr "CATS2008-v2023");
     ("projection", VDict [("datum", VStr "WGS84"); ("lat_0", VNum ((-90) # 1)); ("lat_ts", VNum ((-71) # 1)); ("lon_0", VNum ((-70) # 1)); ("proj", VStr "stere"); ("type", VStr "crs"); ("units", VStr "km"); ("x_0", VNum (0 # 1)); ("y_0", VNum (0 # 1))]);
     ("reference", VStr "https://doi.org/10.15784/601772");
     ("type", VList [VStr "u"; VStr "v"])]);
   ("FES2014",
    [("format", VStr "FES-netcdf");
     ("model_file", VDict [("u", VList [VStr "fes2014/eastward_velocity/2n2.nc"; VStr "fes2014/eastward_velocity/eps2.nc"; VStr "fes2014/eastward_velocity/j1.nc"; VStr "fes2014/eastward_velocity/k1.nc"; VStr "fes2014/eastward_velocity/k2.nc"; VStr "fes2014/eastward_velocity/l2.nc"; VStr "fes2014/eastward_velocity/la2.nc"; VStr "fes2014/eastward_velocity/m2.nc"; VStr "fes2014/eastward_velocity/m3.nc"; VStr "fes2014/eastward_velocity/m4.nc"; VStr "fes2014/eastward_velocity/m6.nc"; VStr "fes2014/eastward_velocity/m8.nc"; VStr "fes2014/eastward_velocity/mf.nc"; VStr "fes2014/eastward_velocity/mks2.nc"; VStr "fes2014/eastward_velocity/mm.nc"; VStr "fes2014/eastward_velocity/mn4.nc"; VStr "fes2014/eastward_velocity/ms4.nc"; VStr "fes2014/eastward_velocity/msf.nc"; VStr "fes2014/eastward_velocity/msqm.nc"; VStr "fes2014/eastward_velocity/mtm.nc"; VStr "fes2014/eastward_velocity/mu2.nc"; VStr "fes2014/eastward_velocity/n2.nc"; VStr "fes2014/eastward_velocity/n4.nc"; VStr "fes2014/eastward_velocity/nu2.nc"; VStr "fes2014/eastward_velocity/o1.nc"; VStr "fes2014/eastward_velocity/p1.nc"; VStr "fes2014/eastward_velocity/q1.nc"; VStr "fes2014/eastward_velocity/r2.nc"; VStr "fes2014/eastward_velocity/s1.nc"; VStr "fes2014/eastward_velocity/s2.nc"; VStr "fes2014/eastward_velocity/s4.nc"; VStr "fes2014/eastward_velocity/sa.nc"; VStr "fes2014/eastward_velocity/ssa.nc"; VStr "fes2014/eastward_velocity/t2.nc"]); ("v", VList [VStr "fes2014/northward_velocity/2n2.nc"; VStr "fes2014/northward_velocity/eps2.nc"; VStr "fes2014/northward_velocity/j1.nc"; VStr "fes2014/northward_velocity/k1.nc"; VStr "fes2014/northward_velocity/k2.nc"; VStr "fes2014/northward_velocity/l2.nc"; VStr "fes2014/northward_velocity/la2.nc"; VStr "fes2014/northward_velocity/m2.nc"; VStr "fes2014/northward_velocity/m3.nc"; VStr "fes2014/northward_velocity/m4.nc"; VStr "fes2014/northward_velocity/m6.nc"; VStr "fes2014/northward_velocity/m8.nc"; VStr "fes2014/northward_velocity/mf.nc"; VStr "fes2014/northward_velocity/mks2.nc"; VStr "fes2014/northward_velocity/mm.nc"; VStr "fes2014/northward_velocity/mn4.nc"; VStr "fes2014/northward_velocity/ms4.nc"; VStr "fes2014/northward_velocity/msf.nc"; VStr "fes2014/northward_velocity/msqm.nc"; VStr "fes2014/northward_velocity/mtm.nc"; VStr "fes2014/northward_velocity/mu2.nc"; VStr "fes2014/northward_velocity/n2.nc"; VStr "fes2014/northward_velocity/n4.nc"; VStr "fes2014/northward_velocity/nu2.nc"; VStr "fes2014/northward_velocity/o1.nc"; VStr "fes2014/northward_velocity/p1.nc"; VStr "fes2014/northward_velocity/q1.nc"; VStr "fes2014/northward_velocity/r2.nc"; VStr "fes2014/northward_velocity/s1.nc"; VStr "fes2014/northward_velocity/s2.nc"; VStr "fes2014/northward_velocity/s4.nc"; VStr "fes2014/northward_velocity/sa.nc"; VStr "fes2014/northward_velocity/ssa.nc"; VStr "fes2014/northward_velocity/t2.nc"])]);
     ("name", VStr "FES2014");
     ("reference", VStr "https://www.aviso.altimetry.fr/en/data/productsauxiliary-products/global-tide-fes.html");
     ("scale", VNum (1 # 1));
     ("type", VList [VStr "u"; VStr "v"]);
     ("version", VStr "FES2014")]);
   ("Gr1km-v2",
    [("format", VStr "OTIS");
     ("grid_file", VStr "greenlandTMD_v2/grid_Greenland8.v2");
     ("model_file", VDict [("u", VStr "greenlandTMD_v2/u_Greenland8_rot.v2")]);
     ("name", VStr "Gr1km-v2");
     ("projection", VDict [("datum", VStr "WGS84"); ("lat_0", VNum (90 # 1)); ("lat_ts", VNum (70 # 1)); ("lon_0", VNum ((-45) # 1)); ("proj", VStr "stere"); ("type", VStr "crs"); ("units", VStr "km"); ("x_0", VNum (0 # 1)); ("y_0", VNum (0 # 1))]);
     ("reference", VStr "https://doi.org/10.1002/2016RG000546");
     ("type", VList [VStr "u"; VStr "v"]);
     ("version", VStr "v2")]);
   ("Gr1kmTM",
    [("format", VStr "OTIS");
     ("grid_file", VStr "Gr1kmTM/grid_Gr1kmTM_v1");
     ("model_file", VDict [("u", VStr "Gr1kmTM/UV_Gr1kmTM_v1")]);
     ("name", VStr "Gr1kmTM");
     ("projection", VDict [("datum", VStr "WGS84"); ("lat_0", VNum (90 # 1)); ("lat_ts", VNum (70 # 1)); ("lon_0", VNum ((-45) # 1)); ("proj", VStr "stere"); ("type", VStr "crs"); ("units", VStr "km"); ("x_0", VNum (0 # 1)); ("y_0", VNum (0 # 1))]);
     ("reference", VStr "https://doi.org/10.18739/A2B853K18");
     ("type", VList [VStr "u"; VStr "v"]);
     ("version", VStr "v1")]);
   ("HAMTIDE11",
    [("format", VStr "FES-netcdf");
     ("model_file", VDict [("u", VList [VStr "hamtide/HAMcurrent11a_2n.nc"; VStr "hamtide/HAMcurrent11a_k1.nc"; VStr "hamtide/HAMcurrent11a_k2.nc"; VStr "hamtide/HAMcurrent11a_m2.nc"; VStr "hamtide/HAMcurrent11a_n2.nc"; VStr "hamtide/HAMcurrent11a_o1.nc"; VStr "hamtide/HAMcurrent11a_p1.nc"; VStr "hamtide/HAMcurrent11a_q1.nc"; VStr "hamtide/HAMcurrent11a_s2.nc"]); ("v", VList [VStr "hamtide/HAMcurrent11a_2n.nc"; VStr "hamtide/HAMcurrent11a_k1.nc"; VStr "hamtide/HAMcurrent11a_k2.nc"; VStr "hamtide/HAMcurrent11a_m2.nc"; VStr "hamtide/HAMcurrent11a_n2.nc"; VStr "hamtide/HAMcurrent11a_o1.nc"; VStr "hamtide/HAMcurrent11a_p1.nc"; VStr "hamtide/HAMcurrent11a_q1.nc"; VStr "hamtide/HAMcurrent11a_s2.nc"])]);
     ("name", VStr "HAMTIDE11");
     ("reference", VStr "https://doi.org/10.1002/2013JC009766");
     ("scale", VNum (1 # 1));
     ("type", VList [VStr "u"; VStr "v"]);
     ("version", VStr "HAMTIDE11")]);
   ("TPXO10-atlas-v2",
    [("format", VStr "OTIS");
     ("grid_file", VStr "TPXO10_atlas_v2/grid_tpxo10_atlas_30_v2");
     ("model_file", VDict [("u", VList [VStr "TPXO10_atlas_v2/u_2n2_tpxo10_atlas_30_v2"; VStr "TPXO10_atlas_v2/u_k1_tpxo10_atlas_30_v2"; VStr "TPXO10_atlas_v2/u_k2_tpxo10_atlas_30_v2"; VStr "TPXO10_atlas_v2/u_m2_tpxo10_atlas_30_v2"; VStr "TPXO10_atlas_v2/u_m4_tpxo10_atlas_30_v2"; VStr "TPXO10_atlas_v2/u_mf_tpxo10_atlas_30_v2"; VStr "TPXO10_atlas_v2/u_mm_tpxo10_atlas_30_v2"; VStr "TPXO10_atlas_v2/u_mn4_tpxo10_atlas_30_v2"; VStr "TPXO10_atlas_v2/u_ms4_tpxo10_atlas_30_v2"; VStr "TPXO10_atlas_v2/u_n2_tpxo10_atlas_30_v2"; VStr "TPXO10_atlas_v2/u_o1_tpxo10_atlas_30_v2"; VStr "TPXO10_atlas_v2/u_p1_tpxo10_atlas_30_v2"; VStr "TPXO10_atlas_v2/u_q1_tpxo10_atlas_30_v2"; VStr "TPXO10_atlas_v2/u_s1_tpxo10_atlas_30_v2"; VStr "TPXO10_atlas_v2/u_s2_tpxo10_atlas_30_v2"])]);
     ("name", VStr "TPXO10-atlas-v2");
     ("projection", VStr "EPSG:4326");
     ("reference", VStr "https://www.tpxo.net/global/tpxo10-atlas");
     ("scale", VNum (1 # 10000));
     ("type", VList [VStr "u"; VStr "v"]);
     ("version", VStr "v2")]);
   ("TPXO10-atlas-v2-nc",
    [("format", VStr "ATLAS-netcdf");
     ("grid_file", VStr "TPXO10_atlas_v2/grid_tpxo10atlas_v2.nc");
     ("model_file", VDict [("u", VList [VStr "TPXO10_atlas_v2/u_2n2_tpxo10_atlas_30_v2.nc"; VStr "TPXO10_atlas_v2/u_k1_tpxo10_atlas_30_v2.nc"; VStr "TPXO10_atlas_v2/u_k2_tpxo10_atlas_30_v2.nc"; VStr "TPXO10_atlas_v2/u_m2_tpxo10_atlas_30_v2.nc"; VStr "TPXO10_atlas_v2/u_m4_tpxo10_atlas_30_v2.nc"; VStr "TPXO10_atlas_v2/u_mf_tpxo10_atlas_30_v2.nc"; VStr "TPXO10_atlas_v2/u_mm_tpxo10_atlas_30_v2.nc"; VStr "TPXO10_atlas_v2/u_mn4_tpxo10_atlas_30_v2.nc"; VStr "TPXO10_atlas_v2/u_ms4_tpxo10_atlas_30_v2.nc"; VStr "TPXO10_atlas_v2/u_n2_tpxo10_atlas_30_v2.nc"; VStr "TPXO10_atlas_v2/u_o1_tpxo10_atlas_30_v2.nc"; VStr "TPXO10_atlas_v2/u_p1_tpxo10_atlas_30_v2.nc"; VStr "TPXO10_atlas_v2/u_q1_tpxo10_atlas_30_v2.nc"; VStr "TPXO10_atlas_v2/u_s1_tpxo10_atlas_30_v2.nc"; VStr "TPXO10_atlas_v2/u_s2_tpxo10_atlas_30_v2.nc"]); ("v", VList [VStr "TPXO10_atlas_v2/u_2n2_tpxo10_atlas_30_v2.nc"; VStr "TPXO10_atlas_v2/u_k1_tpxo10_atlas_30_v2.nc"; VStr "TPXO10_atlas_v2/u_k2_tpxo10_atlas_30_v2.nc"; VStr "TPXO10_atlas_v2/u_m2_tpxo10_atlas_30_v2.nc"; VStr "TPXO10_atlas_v2/u_m4_tpxo10_atlas_30_v2.nc"; VStr "TPXO10_atlas_v2/u_mf_tpxo10_atlas_30_v2.nc"; VStr "TPXO10_atlas_v2/u_mm_tpxo10_atlas_30_v2.nc"; VStr "TPXO10_atlas_v2/u_mn4_tpxo10_atlas_30_v2.nc"; VStr "TPXO10_atlas_v2/u_ms4_tpxo10_atlas_30_v2.nc"; VStr "TPXO10_atlas_v2/u_n2_tpxo10_atlas_30_v2.nc"; VStr "TPXO10_atlas_v2/u_o1_tpxo10_atlas_30_v2.nc"; VStr "TPXO10_atlas_v2/u_p1_tpxo10_atlas_30_v2.nc"; VStr "TPXO10_atlas_v2/u_q1_tpxo10_atlas_30_v2.nc"; VStr "TPXO10_atlas_v2/u_s1_tpxo10_atlas_30_v2.nc"; VStr "TPXO10_atlas_v2/u_s2_tpxo10_atlas_30_v2.nc"])]);
     ("name", VStr "TPXO10-atlas-v2");
     ("projection", VStr "EPSG:4326");
     ("reference", VStr "https://www.tpxo.net/global/tpxo10-atlas");
     ("scale", VNum (1 # 10000));
     ("type", VList [VStr "u"; VStr "v"]);
     ("version", VStr "v2")]);
   ("TPXO7.2",
    [("format", VStr "OTIS");
     ("grid_file", VStr "TPXO7.2_tmd/grid_tpxo7.2");
     ("model_file", VDict [("u", VStr "TPXO7.2_tmd/u_tpxo7.2")]);
     ("name", VStr "TPXO7.2");
     ("projection", VStr "EPSG:4326");
     ("reference", VStr "http://volkov.oce.orst.edu/tides/global.html");
     ("type", VList [VStr "u"; VStr "v"]);
     ("version", VStr "7.2")]);
   ("TPXO8-atlas",
    [("format", VStr "ATLAS-compact");
     ("grid_file", VStr "tpxo8_atlas/grid_tpxo8atlas_30_v1");
     ("model_file", VDict [("u", VStr "tpxo8_atlas/uv.tpxo8_atlas_30_v1")]);
     ("name", VStr "TPXO8-atlas");
     ("projection", VStr "EPSG:4326");
     ("reference", VStr "http://volkov.oce.orst.edu/tides/tpxo8_atlas.html");
     ("type", VList [VStr "u"; VStr "v"]);
     ("version", VStr "8")]);
   ("TPXO9-atlas",
    [("format", VStr "OTIS");
     ("grid_file", VStr "TPXO9_atlas/grid_tpxo9_atlas");
     ("model_file", VDict [("u", VList [VStr "TPXO9_atlas/u_q1_tpxo9_atlas_30"; VStr "TPXO9_atlas/u_o1_tpxo9_atlas_30"; VStr "TPXO9_atlas/u_p1_tpxo9_atlas_30"; VStr "TPXO9_atlas/u_k1_tpxo9_atlas_30"; VStr "TPXO9_atlas/u_n2_tpxo9_atlas_30"; VStr "TPXO9_atlas/u_m2_tpxo9_atlas_30"; VStr "TPXO9_atlas/u_s2_tpxo9_atlas_30"; VStr "TPXO9_atlas/u_k2_tpxo9_atlas_30"; VStr "TPXO9_atlas/u_m4_tpxo9_atlas_30"; VStr "TPXO9_atlas/u_ms4_tpxo9_atlas_30"; VStr "TPXO9_atlas/u_mn4_tpxo9_atlas_30"; VStr "TPXO9_atlas/u_2n2_tpxo9_atlas_30"])]);
     ("name", VStr "TPXO9-atlas");
     ("projection", VStr "EPSG:4326");
     ("reference", VStr "http://volkov.oce.orst.edu/tides/tpxo9_atlas.html");
     ("scale", VNum (1 # 10000));
     ("type", VList [VStr "u"; VStr "v"]);
     ("version", VStr "v1")]);
   ("TPXO9-atlas-nc",
    [("format", VStr "ATLAS-netcdf");
     ("grid_file", VStr "TPXO9_atlas/grid_tpxo9_atlas.nc");
     ("model_file", VDict [("u", VList [VStr "TPXO9_atlas/u_q1_tpxo9_atlas_30.nc"; VStr "TPXO9_atlas/u_o1_tpxo9_atlas_30.nc"; VStr "TPXO9_atlas/u_p1_tpxo9_atlas_30.nc"; VStr "TPXO9_atlas/u_k1_tpxo9_atlas_30.nc"; VStr "TPXO9_atlas/u_n2_tpxo9_atlas_30.nc"; VStr "TPXO9_atlas/u_m2_tpxo9_atlas_30.nc"; VStr "TPXO9_atlas/u_s2_tpxo9_atlas_30.nc"; VStr "TPXO9_atlas/u_k2_tpxo9_atlas_30.nc"; VStr "TPXO9_atlas/u_m4_tpxo9_atlas_30.nc"; VStr "TPXO9_atlas/u_ms4_tpxo9_atlas_30.nc"; VStr "TPXO9_atlas/u_mn4_tpxo9_atlas_30.nc"; VStr "TPXO9_atlas/u_2n2_tpxo9_atlas_30.nc"]); ("v", VList [VStr "TPXO9_atlas/v_q1_tpxo9_atlas_30.nc"; VStr "TPXO9_atlas/v_o1_tpxo9_atlas_30.nc"; VStr "TPXO9_atlas/v_p1_tpxo9_atlas_30.nc"; VStr "TPXO9_atlas/v_k1_tpxo9_atlas_30.nc"; VStr "TPXO9_atlas/v_n2_tpxo9_atlas_30.nc"; VStr "TPXO9_atlas/v_m2_tpxo9_atlas_30.nc"; VStr "TPXO9_atlas/v_s2_tpxo9_atlas_30.nc"; VStr "TPXO9_atlas/v_k2_tpxo9_atlas_30.nc"; VStr "TPXO9_atlas/v_m4_tpxo9_atlas_30.nc"; VStr "TPXO9_atlas/v_ms4_tpxo9_atlas_30.nc"; VStr "TPXO9_atlas/v_mn4_tpxo9_atlas_30.nc"; VStr "TPXO9_atlas/v_2n2_tpxo9_atlas_30.nc"])]);
     ("name", VStr "TPXO9-atlas");
     ("projection", VStr "EPSG:4326");
     ("reference", VStr "http://volkov.oce.orst.edu/tides/tpxo9_atlas.html");
     ("scale", VNum (1 # 10000));
     ("type", VList [VStr "u"; VStr "v"]);
     ("version", VStr "v1")]);
   ("TPXO9-atlas-v2",
    [("format", VStr "OTIS");
     ("grid_file", VStr "TPXO9_atlas_v2/grid_tpxo9_atlas_30_v2");
     ("model_file", VDict [("u", VList [VStr "TPXO9_atlas_v2/u_q1_tpxo9_atlas_30_v2"; VStr "TPXO9_atlas_v2/u_o1_tpxo9_atlas_30_v2"; VStr "TPXO9_atlas_v2/u_p1_tpxo9_atlas_30_v2"; VStr "TPXO9_atlas_v2/u_k1_tpxo9_atlas_30_v2"; VStr "TPXO9_atlas_v2/u_n2_tpxo9_atlas_30_v2"; VStr "TPXO9_atlas_v2/u_m2_tpxo9_atlas_30_v2"; VStr "TPXO9_atlas_v2/u_s2_tpxo9_atlas_30_v2"; VStr "TPXO9_atlas_v2/u_k2_tpxo9_atlas_30_v2"; VStr "TPXO9_atlas_v2/u_m4_tpxo9_atlas_30_v2"; VStr "TPXO9_atlas_v2/u_ms4_tpxo9_atlas_30_v2"; VStr "TPXO9_atlas_v2/u_mn4_tpxo9_atlas_30_v2"; VStr "TPXO9_atlas_v2/u_2n2_tpxo9_atlas_30_v2"])]);
     ("name", VStr "TPXO9-atlas-v2");
     ("projection", VStr "EPSG:4326");
     ("reference", VStr "https://www.tpxo.net/global/tpxo9-atlas");
     ("scale", VNum (1 # 10000));
     ("type", VList [VStr "u"; VStr "v"]);
     ("version", VStr "v2")]);
   ("TPXO9-atlas-v2-nc",
    [("format", VStr "ATLAS-netcdf");
     ("grid_file", VStr "TPXO9_atlas_v2/grid_tpxo9_atlas_30_v2.nc");
     ("model_file", VDict [("u", VList [VStr "TPXO9_atlas_v2/u_q1_tpxo9_atlas_30_v2.nc"; VStr "TPXO9_atlas_v2/u_o1_tpxo9_atlas_30_v2.nc"; VStr "TPXO9_atlas_v2/u_p1_tpxo9_atlas_30_v2.nc"; VStr "TPXO9_atlas_v2/u_k1_tpxo9_atlas_30_v2.nc"; VStr "TPXO9_atlas_v2/u_n2_tpxo9_atlas_30_v2.nc"; VStr "TPXO9_atlas_v2/u_m2_tpxo9_atlas_30_v2.nc"; VStr "TPXO9_atlas_v2/u_s2_tpxo9_atlas_30_v2.nc"; VStr "TPXO9_atlas_v2/u_k2_tpxo9_atlas_30_v2.nc"; VStr "TPXO9_atlas_v2/u_m4_tpxo9_atlas_30_v2.nc"; VStr "TPXO9_atlas_v2/u_ms4_tpxo9_atlas_30_v2.nc"; VStr "TPXO9_atlas_v2/u_mn4_tpxo9_atlas_30_v2.nc"; VStr "TPXO9_atlas_v2/u_2n2_tpxo9_atlas_30_v2.nc"]); ("v", VList [VStr "TPXO9_atlas_v2/v_q1_tpxo9_atlas_30_v2.nc"; VStr "TPXO9_atlas_v2/v_o1_tpxo9_atlas_30_v2.nc"; VStr "TPXO9_atlas_v2/v_p1_tpxo9_atlas_30_v2.nc"; VStr "TPXO9_atlas_v2/v_k1_tpxo9_atlas_30_v2.nc"; VStr "TPXO9_atlas_v2/v_n2_tpxo9_atlas_30_v2.nc"; VStr "TPXO9_atlas_v2/v_m2_tpxo9_atlas_30_v2.nc"; VStr "TPXO9_atlas_v2/v_s2_tpxo9_atlas_30_v2.nc"; VStr "TPXO9_atlas_v2/v_k2_tpxo9_atlas_30_v2.nc"; VStr "TPXO9_atlas_v2/v_m4_tpxo9_atlas_30_v2.nc"; VStr "TPXO9_atlas_v2/v_ms4_tpxo9_atlas_30_v2.nc"; VStr "TPXO9_atlas_v2/v_mn4_tpxo9_atlas_30_v2.nc"; VStr "TPXO9_atlas_v2/v_2n2_tpxo9_atlas_30_v2.nc"])]);
     ("name", VStr "TPXO9-atlas-v2");
     ("projection", VStr "EPSG:4326");
     ("reference", VStr "https://www.tpxo.net/global/tpxo9-atlas");
     ("scale", VNum (1 # 10000));
     ("type", VList [VStr "u"; VStr "v"]);
     ("version", VStr "v2")]);
   ("TPXO9-atlas-v3",
    [("format", VStr "OTIS");
     ("grid_file", VStr "TPXO9_atlas_v3/grid_tpxo9_atlas_30_v3");
     ("model_file", VDict [("u", VList [VStr "TPXO9_atlas_v3/u_q1_tpxo9_atlas_30_v3"; VStr "TPXO9_atlas_v3/u_o1_tpxo9_atlas_30_v3"; VStr "TPXO9_atlas_v3/u_p1_tpxo9_atlas_30_v3"; VStr "TPXO9_atlas_v3/u_k1_tpxo9_atlas_30_v3"; VStr "TPXO9_atlas_v3/u_n2_tpxo9_atlas_30_v3"; VStr "TPXO9_atlas_v3/u_m2_tpxo9_atlas_30_v3"; VStr "TPXO9_atlas_v3/u_s2_tpxo9_atlas_30_v3"; VStr "TPXO9_atlas_v3/u_k2_tpxo9_atlas_30_v3"; VStr "TPXO9_atlas_v3/u_m4_tpxo9_atlas_30_v3"; VStr "TPXO9_atlas_v3/u_ms4_tpxo9_atlas_30_v3"; VStr "TPXO9_atlas_v3/u_mn4_tpxo9_atlas_30_v3"; VStr "TPXO9_atlas_v3/u_2n2_tpxo9_atlas_30_v3"; VStr "TPXO9_atlas_v3/u_mf_tpxo9_atlas_30_v3"; VStr "TPXO9_atlas_v3/u_mm_tpxo9_atlas_30_v3"])]);
     ("name", VStr "TPXO9-atlas-v3");
     ("projection", VStr "EPSG:4326");
     ("reference", VStr "https://www.tpxo.net/global/tpxo9-atlas");
     ("scale", VNum (1 # 10000));
     ("type", VList [VStr "u"; VStr "v"]);
     ("version", VStr "v3")]);
   ("TPXO9-atlas-v3-nc",
    [("format", VStr "ATLAS-netcdf");
     ("grid_file", VStr "TPXO9_atlas_v3/grid_tpxo9_atlas_30_v3.nc");
     ("model_file", VDict [("u", VList [VStr "TPXO9_atlas_v3/u_q1_tpxo9_atlas_30_v3.nc"; VStr "TPXO9_atlas_v3/u_o1_tpxo9_atlas_30_v3.nc"; VStr "TPXO9_atlas_v3/u_p1_tpxo9_atlas_30_v3.nc"; VStr "TPXO9_atlas_v3/u_k1_tpxo9_atlas_30_v3.nc"; VStr "TPXO9_atlas_v3/u_n2_tpxo9_atlas_30_v3.nc"; VStr "TPXO9_atlas_v3/u_m2_tpxo9_atlas_30_v3.nc"; VStr "TPXO9_atlas_v3/u_s2_tpxo9_atlas_30_v3.nc"; VStr "TPXO9_atlas_v3/u_k2_tpxo9_atlas_30_v3.nc"; VStr "TPXO9_atlas_v3/u_m4_tpxo9_atlas_30_v3.nc"; VStr "TPXO9_atlas_v3/u_ms4_tpxo9_atlas_30_v3.nc"; VStr "TPXO9_atlas_v3/u_mn4_tpxo9_atlas_30_v3.nc"; VStr "TPXO9_atlas_v3/u_2n2_tpxo9_atlas_30_v3.nc"; VStr "TPXO9_atlas_v3/u_mf_tpxo9_atlas_30_v3.nc"; VStr "TPXO9_atlas_v3/u_mm_tpxo9_atlas_30_v3.nc"]); ("v", VList [VStr "TPXO9_atlas_v3/v_q1_tpxo9_atlas_30_v3.nc"; VStr "TPXO9_atlas_v3/v_o1_tpxo9_atlas_30_v3.nc"; VStr "TPXO9_atlas_v3/v_p1_tpxo9_atlas_30_v3.nc"; VStr "TPXO9_atlas_v3/v_k1_tpxo9_atlas_30_v3.nc"; VStr "TPXO9_atlas_v3/v_n2_tpxo9_atlas_30_v3.nc"; VStr "TPXO9_atlas_v3/v_m2_tpxo9_atlas_30_v3.nc"; VStr "TPXO9_atlas_v3/v_s2_tpxo9_atlas_30_v3.nc"; VStr "TPXO9_atlas_v3/v_k2_tpxo9_atlas_30_v3.nc"; VStr "TPXO9_atlas_v3/v_m4_tpxo9_atlas_30_v3.nc"; VStr "TPXO9_atlas_v3/v_ms4_tpxo9_atlas_30_v3.nc"; VStr "TPXO9_atlas_v3/v_mn4_tpxo9_atlas_30_v3.nc"; VStr "TPXO9_atlas_v3/v_2n2_tpxo9_atlas_30_v3.nc"; VStr "TPXO9_atlas_v3/v_mf_tpxo9_atlas_30_v3.nc"; VStr "TPXO9_atlas_v3/v_mm_tpxo9_atlas_30_v3.nc"])]);
     ("name", VStr "TPXO9-atlas-v3");
     ("projection", VStr "EPSG:4326");
     ("reference", VStr "https://www.tpxo.net/global/tpxo9-atlas");
     ("scale", VNum (1 # 10000));
     ("type", VList [VStr "u"; VStr "v"]);
     ("version", VStr "v3")]);
   ("TPXO9-atlas-v4",
    [("format", VStr "OTIS");
     ("grid_file", VStr "TPXO9_atlas_v4/grid_tpxo9_atlas_30_v4");
     ("model_file", VDict [("u", VList [VStr "TPXO9_atlas_v4/u_q1_tpxo9_atlas_30_v4"; VStr "TPXO9_atlas_v4/u_o1_tpxo9_atlas_30_v4"; VStr "TPXO9_atlas_v4/u_p1_tpxo9_atlas_30_v4"; VStr "TPXO9_atlas_v4/u_k1_tpxo9_atlas_30_v4"; VStr "TPXO9_atlas_v4/u_n2_tpxo9_atlas_30_v4"; VStr "TPXO9_atlas_v4/u_m2_tpxo9_atlas_30_v4"; VStr "TPXO9_atlas_v4/u_s2_tpxo9_atlas_30_v4"; VStr "TPXO9_atlas_v4/u_k2_tpxo9_atlas_30_v4"; VStr "TPXO9_atlas_v4/u_m4_tpxo9_atlas_30_v4"; VStr "TPXO9_atlas_v4/u_ms4_tpxo9_atlas_30_v4"; VStr "TPXO9_atlas_v4/u_mn4_tpxo9_atlas_30_v4"; VStr "TPXO9_atlas_v4/u_2n2_tpxo9_atlas_30_v4"; VStr "TPXO9_atlas_v4/u_mf_tpxo9_atlas_30_v4"; VStr "TPXO9_atlas_v4/u_mm_tpxo9_atlas_30_v4"])]);
     ("name", VStr "TPXO9-atlas-v4");
     ("projection", VStr "EPSG:4326");
     ("reference", VStr "https://www.tpxo.net/global/tpxo9-atlas");
     ("scale", VNum (1 # 10000));
     ("type", VList [VStr "u"; VStr "v"]);
     ("version", VStr "v4")]);
   ("TPXO9-atlas-v4-nc",
    [("format", VStr "ATLAS-netcdf");
     ("grid_file", VStr "TPXO9_atlas_v4/grid_tpxo9_atlas_30_v4.nc");
     ("model_file", VDict [("u", VList [VStr "TPXO9_atlas_v4/u_q1_tpxo9_atlas_30_v4.nc"; VStr "TPXO9_atlas_v4/u_o1_tpxo9_atlas_30_v4.nc"; VStr "TPXO9_atlas_v4/u_p1_tpxo9_atlas_30_v4.nc"; VStr "TPXO9_atlas_v4/u_k1_tpxo9_atlas_30_v4.nc"; VStr "TPXO9_atlas_v4/u_n2_tpxo9_atlas_30_v4.nc"; VStr "TPXO9_atlas_v4/u_m2_tpxo9_atlas_30_v4.nc"; VStr "TPXO9_atlas_v4/u_s2_tpxo9_atlas_30_v4.nc"; VStr "TPXO9_atlas_v4/u_k2_tpxo9_atlas_30_v4.nc"; VStr "TPXO9_atlas_v4/u_m4_tpxo9_atlas_30_v4.nc"; VStr "TPXO9_atlas_v4/u_ms4_tpxo9_atlas_30_v4.nc"; VStr "TPXO9_atlas_v4/u_mn4_tpxo9_atlas_30_v4.nc"; VStr "TPXO9_atlas_v4/u_2n2_tpxo9_atlas_30_v4.nc"; VStr "TPXO9_atlas_v4/u_mf_tpxo9_atlas_30_v4.nc"; VStr "TPXO9_atlas_v4/u_mm_tpxo9_atlas_30_v4.nc"]); ("v", VList [VStr "TPXO9_atlas_v4/v_q1_tpxo9_atlas_30_v4.nc"; VStr "TPXO9_atlas_v4/v_o1_tpxo9_atlas_30_v4.nc"; VStr "TPXO9_atlas_v4/v_p1_tpxo9_atlas_30_v4.nc"; VStr "TPXO9_atlas_v4/v_k1_tpxo9_atlas_30_v4.nc"; VStr "TPXO9_atlas_v4/v_n2_tpxo9_atlas_30_v4.nc"; VStr "TPXO9_atlas_v4/v_m2_tpxo9_atlas_30_v4.nc"; VStr "TPXO9_atlas_v4/v_s2_tpxo9_atlas_30_v4.nc"; VStr "TPXO9_atlas_v4/v_k2_tpxo9_atlas_30_v4.nc"; VStr "TPXO9_atlas_v4/v_m4_tpxo9_atlas_30_v4.nc"; VStr "TPXO9_atlas_v4/v_ms4_tpxo9_atlas_30_v4.nc"; VStr "TPXO9_atlas_v4/v_mn4_tpxo9_atlas_30_v4.nc"; VStr "TPXO9_atlas_v4/v_2n2_tpxo9_atlas_30_v4.nc"; VStr "TPXO9_atlas_v4/v_mf_tpxo9_atlas_30_v4.nc"; VStr "TPXO9_atlas_v4/v_mm_tpxo9_atlas_30_v4.nc"])]);
     ("name", VStr "TPXO9-atlas-v4");
     ("projection", VStr "EPSG:4326");
     ("reference", VStr "https://www.tpxo.net/global/tpxo9-atlas");
     ("scale", VNum (1 # 10000));
     ("type", VList [VStr "u"; VStr "v"]);
     ("version", VStr "v4")]);
   ("TPXO9-atlas-v5",
    [("format", VStr "OTIS");
     ("grid_file", VStr "TPXO9_atlas_v5/grid_tpxo9_atlas_30_v5");
     ("model_file", VDict [("u", VList [VStr "TPXO9_atlas_v5/u_q1_tpxo9_atlas_30_v5"; VStr "TPXO9_atlas_v5/u_o1_tpxo9_atlas_30_v5"; VStr "TPXO9_atlas_v5/u_p1_tpxo9_atlas_30_v5"; VStr "TPXO9_atlas_v5/u_k1_tpxo9_atlas_30_v5"; VStr "TPXO9_atlas_v5/u_n2_tpxo9_atlas_30_v5"; VStr "TPXO9_atlas_v5/u_m2_tpxo9_atlas_30_v5"; VStr "TPXO9_atlas_v5/u_s1_tpxo9_atlas_30_v5"; VStr "TPXO9_atlas_v5/u_s2_tpxo9_atlas_30_v5"; VStr "TPXO9_atlas_v5/u_k2_tpxo9_atlas_30_v5"; VStr "TPXO9_atlas_v5/u_m4_tpxo9_atlas_30_v5"; VStr "TPXO9_atlas_v5/u_ms4_tpxo9_atlas_30_v5"; VStr "TPXO9_atlas_v5/u_mn4_tpxo9_atlas_30_v5"; VStr "TPXO9_atlas_v5/u_2n2_tpxo9_atlas_30_v5"; VStr "TPXO9_atlas_v5/u_mf_tpxo9_atlas_30_v5"; VStr "TPXO9_atlas_v5/u_mm_tpxo9_atlas_30_v5"])]);
     ("name", VStr "TPXO9-atlas-v5");
     ("projection", VStr "EPSG:4326");
     ("reference", VStr "https://www.tpxo.net/global/tpxo9-atlas");
     ("scale", VNum (1 # 10000));
     ("type", VList [VStr "u"; VStr "v"]);
     ("version", VStr "v5")]);
   ("TPXO9-atlas-v5-nc",
    [("format", VStr "ATLAS-netcdf");
     ("grid_file", VStr "TPXO9_atlas_v5/grid_tpxo9_atlas_30_v5.nc");
     ("model_file", VDict [("u", VList [VStr "TPXO9_atlas_v5/u_q1_tpxo9_atlas_30_v5.nc"; VStr "TPXO9_atlas_v5/u_o1_tpxo9_atlas_30_v5.nc"; VStr "TPXO9_atlas_v5/u_p1_tpxo9_atlas_30_v5.nc"; VStr "TPXO9_atlas_v5/u_k1_tpxo9_atlas_30_v5.nc"; VStr "TPXO9_atlas_v5/u_n2_tpxo9_atlas_30_v5.nc"; VStr "TPXO9_atlas_v5/u_m2_tpxo9_atlas_30_v5.nc"; VStr "TPXO9_atlas_v5/u_s1_tpxo9_atlas_30_v5.nc"; VStr "TPXO9_atlas_v5/u_s2_tpxo9_atlas_30_v5.nc"; VStr "TPXO9_atlas_v5/u_k2_tpxo9_atlas_30_v5.nc"; VStr "TPXO9_atlas_v5/u_m4_tpxo9_atlas_30_v5.nc"; VStr "TPXO9_atlas_v5/u_ms4_tpxo9_atlas_30_v5.nc"; VStr "TPXO9_atlas_v5/u_mn4_tpxo9_atlas_30_v5.nc"; VStr "TPXO9_atlas_v5/u_2n2_tpxo9_atlas_30_v5.nc"; VStr "TPXO9_atlas_v5/u_mf_tpxo9_atlas_30_v5.nc"; VStr "TPXO9_atlas_v5/u_mm_tpxo9_atlas_30_v5.nc"]); ("v", VList [VStr "TPXO9_atlas_v5/u_q1_tpxo9_atlas_30_v5.nc"; VStr "TPXO9_atlas_v5/u_o1_tpxo9_atlas_30_v5.nc"; VStr "TPXO9_atlas_v5/u_p1_tpxo9_atlas_30_v5.nc"; VStr "TPXO9_atlas_v5/u_k1_tpxo9_atlas_30_v5.nc"; VStr "TPXO9_atlas_v5/u_n2_tpxo9_atlas_30_v5.nc"; VStr "TPXO9_atlas_v5/u_m2_tpxo9_atlas_30_v5.nc"; VStr "TPXO9_atlas_v5/u_s1_tpxo9_atlas_30_v5.nc"; VStr "TPXO9_atlas_v5/u_s2_tpxo9_atlas_30_v5.nc"; VStr "TPXO9_atlas_v5/u_k2_tpxo9_atlas_30_v5.nc"; VStr "TPXO9_atlas_v5/u_m4_tpxo9_atlas_30_v5.nc"; VStr "TPXO9_atlas_v5/u_ms4_tpxo9_atlas_30_v5.nc"; VStr "TPXO9_atlas_v5/u_mn4_tpxo9_atlas_30_v5.nc"; VStr "TPXO9_atlas_v5/u_2n2_tpxo9_atlas_30_v5.nc"; VStr "TPXO9_atlas_v5/u_mf_tpxo9_atlas_30_v5.nc"; VStr "TPXO9_atlas_v5/u_mm_tpxo9_atlas_30_v5.nc"])]);
     ("name", VStr "TPXO9-atlas-v5");
     ("projection", VStr "EPSG:4326");
     ("reference", VStr "https://www.tpxo.net/global/tpxo9-atlas");
     ("scale", VNum (1 # 10000));
     ("type", VList [VStr "u"; VStr "v"]);
     ("version", VStr "v5")]);
   ("TPXO9.1",
    [("format", VStr "OTIS");
     ("grid_file", VStr "TPXO9.1/grid_tpxo9");
     ("model_file", VDict [("u", VStr "TPXO9.1/u_tpxo9.v1")]);
     ("name", VStr "TPXO9.1");
     ("projection", VStr "EPSG:4326");
     ("reference", VStr "http://volkov.oce.orst.edu/tides/global.html");
     ("type", VList [VStr "u"; VStr "v"]);
     ("version", VStr "9.1")])
  ].

Definition builtin_elevation : list (string * list (string * val)) :=
  [
   ("AODTM-5",
    [("format", VStr "OTIS");
     ("grid_file", VStr "aodtm5_tmd/grid_Arc5km");
     ("model_file", VStr "aodtm5_tmd/h0_Arc5km.oce");
     ("name", VStr "AODTM-5");
     ("projection", VDict [("R", VNum (63999385716113 # 10000000)); ("lat_0", VNum (90 # 1)); ("lon_0", VNum (270 # 1)); ("proj", VStr "aeqd"); ("type", VStr "crs"); ("units", VStr "km"); ("x_0", VNum (0 # 1)); ("y_0", VNum (0 # 1))]);
     ("reference", VStr "https://www.esr.org/research/polar-tide-models/list-of-polar-tide-models/aodtm-5/");
     ("type", VStr "z");
     ("variable", VStr "tide_ocean")]);
   ("AOTIM-5",
    [("format", VStr "OTIS");
     ("grid_file", VStr "aotim5_tmd/grid_Arc5km");
     ("model_file", VStr "aotim5_tmd/h_Arc5km.oce");
     ("name", VStr "AOTIM-5");
     ("projection", VDict [("R", VNum (63999385716113 # 10000000)); ("lat_0", VNum (90 # 1)); ("lon_0", VNum (270 # 1)); ("proj", VStr "aeqd"); ("type", VStr "crs"); ("units", VStr "km"); ("x_0", VNum (0 # 1)); ("y_0", VNum (0 # 1))]);
     ("reference", VStr "https://www.esr.org/research/polar-tide-models/list-of-polar-tide-models/aotim-5/");
     ("type", VStr "z");
     ("variable", VStr "tide_ocean")]);
   ("AOTIM-5-2018",
    [("format", VStr "OTIS");
     ("grid_file", VStr "Arc5km2018/grid_Arc5km2018");
     ("model_file", VStr "Arc5km2018/h_Arc5km2018");
     ("name", VStr "AOTIM-5-2018");
     ("projection", VDict [("R", VNum (63999385716113 # 10000000)); ("lat_0", VNum (90 # 1)); ("lon_0", VNum (270 # 1)); ("proj", VStr "aeqd"); ("type", VStr "crs"); ("units", VStr "km"); ("x_0", VNum (0 # 1)); ("y_0", VNum (0 # 1))]);
     ("reference", VStr "https://www.esr.org/research/polar-tide-models/list-of-polar-tide-models/aotim-5/");
     ("type", VStr "z");
     ("variable", VStr "tide_ocean");
     ("version", VStr "2018")]);
   ("Arc2kmTM",
    [("format", VStr "OTIS");
     ("grid_file", VStr "Arc2kmTM/grid_Arc2kmTM_v1");
     ("model_file", VStr "Arc2kmTM/h_Arc2kmTM_v1");
     ("name", VStr "Arc2kmTM");
     ("projection", VDict [("datum", VStr "WGS84"); ("lat_0", VNum (90 # 1)); ("lat_ts", VNum (70 # 1)); ("lon_0", VNum ((-45) # 1)); ("proj", VStr "stere"); ("type", VStr "crs"); ("units", VStr "km"); ("x_0", VNum (0 # 1)); ("y_0", VNum (0 # 1))]);
     ("reference", VStr "https://doi.org/10.18739/A2D21RK6K");
     ("type", VStr "z");
     ("variable", VStr "tide_ocean");
     ("version", VStr "v1")]);
   ("CATS0201",
    [("format", VStr "OTIS");
     ("grid_file", VStr "cats0201_tmd/grid_CATS");
     ("model_file", VStr "cats0201_tmd/h0_CATS02_01");
     ("name", VStr "CATS0201");
     ("projection", VStr "EPSG:4326");
     ("reference", VStr "https://mail.esr.org/polar_tide_models/Model_CATS0201.html");
     ("type", VStr "z");
     ("variable", VStr "tide_ocean")]);
   ("CATS2008",
    [("format", VStr "OTIS");
     ("grid_file", VStr "CATS2008/grid_CATS2008");
     ("model_file", VStr "CATS2008/hf.CATS2008.out");
     ("name", VStr "CATS2008");
     ("projection", VDict [("datum", VStr "WGS84"); ("lat_0", VNum ((-90) # 1)); ("lat_ts", VNum ((-71) # 1)); ("lon_0", VNum ((-70) # 1)); ("proj", VStr "stere"); ("type", VStr "crs"); ("units", VStr "km"); ("x_0", VNum (0 # 1)); ("y_0", VNum (0 # 1))]);
     ("reference", VStr "https://doi.org/10.15784/601235");
     ("type", VStr "z");
     ("variable", VStr "tide_ocean")]);
   ("CATS2008-v2023",
    [("format", VStr "TMD3");
     ("grid_file", VStr "CATS2008_v2023/CATS2008_v2023.nc");
     ("model_file", VStr "CATS2008_v2023/CATS2008_v2023.nc");
     ("name", VStr "CATS2008-v2023");
     ("projection", VDict [("datum", VStr "WGS84"); ("lat_0", VNum ((-90) # 1)); ("lat_ts", VNum ((-71) # 1)); ("lon_0", VNum ((-70) # 1)); ("proj", VStr "stere"); ("type", VStr "crs"); ("units", VStr "km"); ("x_0", VNum (0 # 1)); ("y_0", VNum (0 # 1))]);
     ("reference", VStr "https://doi.org/10.15784/601772");
     ("type", VStr "z");
     ("variable", VStr "tide_ocean")]);
   ("CATS2008_load",
    [("format", VStr "OTIS");
     ("grid_file", VStr "CATS2008a_SPOTL_Load/grid_CATS2008a_opt");
     ("model_file", VStr "CATS2008a_SPOTL_Load/h_CATS2008a_SPOTL_load");
     ("name", VStr "CATS2008_load");
     ("projection", VDict [("datum", VStr "WGS84"); ("lat_0", VNum ((-90) # 1)); ("lat_ts", VNum ((-71) # 1)); ("lon_0", VNum ((-70) # 1)); ("proj", VStr "stere"); ("type", VStr "crs"); ("units", VStr "km"); ("x_0", VNum (0 # 1)); ("y_0", VNum (0 # 1))]);
     ("reference", VStr "https://doi.org/10.15784/601235");
     ("type", VStr "z");
     ("variable", VStr "tide_load")]);
   ("DTU23",
    [("format", VStr "GOT-ascii");
     ("model_file", VList [VStr "DTU23_OceanTide/DTU23/K1_DTU23.d"; VStr "DTU23_OceanTide/DTU23/K2_DTU23.d"; VStr "DTU23_OceanTide/DTU23/M2_DTU23.d"; VStr "DTU23_OceanTide/DTU23/M4_DTU23.d"; VStr "DTU23_OceanTide/DTU23/N2_DTU23.d"; VStr "DTU23_OceanTide/DTU23/O1_DTU23.d"; VStr "DTU23_OceanTide/DTU23/P1_DTU23.d"; VStr "DTU23_OceanTide/DTU23/Q1_DTU23.d"; VStr "DTU23_OceanTide/DTU23/S1_DTU23.d"; VStr "DTU23_OceanTide/DTU23/S2_DTU23.d"]);
     ("name", VStr "DTU23");
     ("reference", VStr "https://doi.org/10.3390/rs15184479");
     ("scale", VNum (1 # 100));
     ("type", VStr "z");
     ("variable", VStr "tide_ocean");
     ("version", VStr "2023")]);
   ("EOT20",
    [("format", VStr "FES-netcdf");
     ("model_file", VList [VStr "EOT20/ocean_tides/2N2_ocean_eot20.nc"; VStr "EOT20/ocean_tides/J1_ocean_eot20.nc"; VStr "EOT20/ocean_tides/K1_ocean_eot20.nc"; VStr "EOT20/ocean_tides/K2_ocean_eot20.nc"; VStr "EOT20/ocean_tides/M2_ocean_eot20.nc"; VStr "EOT20/ocean_tides/M4_ocean_eot20.nc"; VStr "EOT20/ocean_tides/MF_ocean_eot20.nc"; VStr "EOT20/ocean_tides/MM_ocean_eot20.nc"; VStr "EOT20/ocean_tides/N2_ocean_eot20.nc"; VStr "EOT20/ocean_tides/O1_ocean_eot20.nc"; VStr "EOT20/ocean_tides/P1_ocean_eot20.nc"; VStr "EOT20/ocean_tides/Q1_ocean_eot20.nc"; VStr "EOT20/ocean_tides/S1_ocean_eot20.nc"; VStr "EOT20/ocean_tides/S2_ocean_eot20.nc"; VStr "EOT20/ocean_tides/SA_ocean_eot20.nc"; VStr "EOT20/ocean_tides/SSA_ocean_eot20.nc"; VStr "EOT20/ocean_tides/T2_ocean_eot20.nc"]);
     ("name", VStr "EOT20");
     ("reference", VStr "https://doi.org/10.17882/79489");
     ("scale", VNum (1 # 100));
     ("type", VStr "z");
     ("variable", VStr "tide_ocean");
     ("version", VStr "EOT20")]);
   ("EOT20_load",
    [("format", VStr "FES-netcdf");
     ("model_file", VList [VStr "EOT20/load_tides/2N2_load_eot20.nc"; VStr "EOT20/load_tides/J1_load_eot20.nc"; VStr "EOT20/load_tides/K1_load_eot20.nc"; VStr "EOT20/load_tides/K2_load_eot20.nc"; VStr "EOT20/load_tides/M2_load_eot20.nc"; VStr "EOT20/load_tides/M4_load_eot20.nc"; VStr "EOT20/load_tides/MF_load_eot20.nc"; VStr "EOT20/load_tides/MM_load_eot20.nc"; VStr "EOT20/load_tides/N2_load_eot20.nc"; VStr "EOT20/load_tides/O1_load_eot20.nc"; VStr "EOT20/load_tides/P1_load_eot20.nc"; VStr "EOT20/load_tides/Q1_load_eot20.nc"; VStr "EOT20/load_tides/S1_load_eot20.nc"; VStr "EOT20/load_tides/S2_load_eot20.nc"; VStr "EOT20/load_tides/SA_load_eot20.nc"; VStr "EOT20/load_tides/SSA_load_eot20.nc"; VStr "EOT20/load_tides/T2_load_eot20.nc"]);
     ("name", VStr "EOT20_load");
     ("reference", VStr "https://doi.org/10.17882/79489");
     ("scale", VNum (1 # 100));
     ("type", VStr "z");
     ("variable", VStr "tide_load");
     ("version", VStr "EOT20")]);
   ("FES2012",
    [("format", VStr "FES-netcdf");
     ("model_file", VList [VStr "fes2012/data/T2_FES2012_SLEV.nc"; VStr "fes2012/data/MSf_FES2012_SLEV.nc"; VStr "fes2012/data/Mtm_FES2012_SLEV.nc"; VStr "fes2012/data/L2_FES2012_SLEV.nc"; VStr "fes2012/data/Mm_FES2012_SLEV.nc"; VStr "fes2012/data/Q1_FES2012_SLEV.nc"; VStr "fes2012/data/2N2_FES2012_SLEV.nc"; VStr "fes2012/data/N4_FES2012_SLEV.nc"; VStr "fes2012/data/O1_FES2012_SLEV.nc"; VStr "fes2012/data/M3_FES2012_SLEV.nc"; VStr "fes2012/data/N2_FES2012_SLEV.nc"; VStr "fes2012/data/K1_FES2012_SLEV.nc"; VStr "fes2012/data/S1_FES2012_SLEV.nc"; VStr "fes2012/data/MS4_FES2012_SLEV.nc"; VStr "fes2012/data/R2_FES2012_SLEV.nc"; VStr "fes2012/data/Mu2_FES2012_SLEV.nc"; VStr "fes2012/data/E2_FES2012_SLEV.nc"; VStr "fes2012/data/S4_FES2012_SLEV.nc"; VStr "fes2012/data/Ssa_FES2012_SLEV.nc"; VStr "fes2012/data/La2_FES2012_SLEV.nc"; VStr "fes2012/data/MN4_FES2012_SLEV.nc"; VStr "fes2012/data/M2_FES2012_SLEV.nc"; VStr "fes2012/data/J1_FES2012_SLEV.nc"; VStr "fes2012/data/M6_FES2012_SLEV.nc"; VStr "fes2012/data/Mf_FES2012_SLEV.nc"; VStr "fes2012/data/M4_FES2012_SLEV.nc"; VStr "fes2012/data/P1_FES2012_SLEV.nc"; VStr "fes2012/data/K2_FES2012_SLEV.nc"; VStr "fes2012/data/MKS2_FES2012_SLEV.nc"; VStr "fes2012/data/S2_FES2012_SLEV.nc"; VStr "fes2012/data/M8_FES2012_SLEV.nc"; VStr "fes2012/data/Nu2_FES2012_SLEV.nc"]);
     ("name", VStr "FES2012");
     ("reference", VStr "https://www.aviso.altimetry.fr/en/data/products/auxiliary-products/global-tide-fes.html");
     ("scale", VNum (1 # 100));
     ("type", VStr "z");
     ("variable", VStr "tide_ocean");
     ("version", VStr "FES2012")]);
   ("FES2014",
    [("format", VStr "FES-netcdf");
     ("model_file", VList [VStr "fes2014/ocean_tide/2n2.nc"; VStr "fes2014/ocean_tide/eps2.nc"; VStr "fes2014/ocean_tide/j1.nc"; VStr "fes2014/ocean_tide/k1.nc"; VStr "fes2014/ocean_tide/k2.nc"; VStr "fes2014/ocean_tide/l2.nc"; VStr "fes2014/ocean_tide/la2.nc"; VStr "fes2014/ocean_tide/m2.nc"; VStr "fes2014/ocean_tide/m3.nc"; VStr "fes2014/ocean_tide/m4.nc"; VStr "fes2014/ocean_tide/m6.nc"; VStr "fes2014/ocean_tide/m8.nc"; VStr "fes2014/ocean_tide/mf.nc"; VStr "fes2014/ocean_tide/mks2.nc"; VStr "fes2014/ocean_tide/mm.nc"; VStr "fes2014/ocean_tide/mn4.nc"; VStr "fes2014/ocean_tide/ms4.nc"; VStr "fes2014/ocean_tide/msf.nc"; VStr "fes2014/ocean_tide/msqm.nc"; VStr "fes2014/ocean_tide/mtm.nc"; VStr "fes2014/ocean_tide/mu2.nc"; VStr "fes2014/ocean_tide/n2.nc"; VStr "fes2014/ocean_tide/n4.nc"; VStr "fes2014/ocean_tide/nu2.nc"; VStr "fes2014/ocean_tide/o1.nc"; VStr "fes2014/ocean_tide/p1.nc"; VStr "fes2014/ocean_tide/q1.nc"; VStr "fes2014/ocean_tide/r2.nc"; VStr "fes2014/ocean_tide/s1.nc"; VStr "fes2014/ocean_tide/s2.nc"; VStr "fes2014/ocean_tide/s4.nc"; VStr "fes2014/ocean_tide/sa.nc"; VStr "fes2014/ocean_tide/ssa.nc"; VStr "fes2014/ocean_tide/t2.nc"]);
     ("name", VStr "FES2014");
     ("reference", VStr "https://www.aviso.altimetry.fr/en/data/products/auxiliary-products/global-tide-fes.html");
     ("scale", VNum (1 # 100));
     ("type", VStr "z");
     ("variable", VStr "tide_ocean");
     ("version", VStr "FES2014")]);
   ("FES2014_extrapolated",
    [("format", VStr "FES-netcdf");
     ("model_file", VList [VStr "fes2014/ocean_tide_extrapolated/2n2.nc"; VStr "fes2014/ocean_tide_extrapolated/eps2.nc"; VStr "fes2014/ocean_tide_extrapolated/j1.nc"; VStr "fes2014/ocean_tide_extrapolated/k1.nc"; VStr "fes2014/ocean_tide_extrapolated/k2.nc"; VStr "fes2014/ocean_tide_extrapolated/l2.nc"; VStr "fes2014/ocean_tide_extrapolated/la2.nc"; VStr "fes2014/ocean_tide_extrapolated/m2.nc"; VStr "fes2014/ocean_tide_extrapolated/m3.nc"; VStr "fes2014/ocean_tide_extrapolated/m4.nc"; VStr "fes2014/ocean_tide_extrapolated/m6.nc"; VStr "fes2014/ocean_tide_extrapolated/m8.nc"; VStr "fes2014/ocean_tide_extrapolated/mf.nc"; VStr "fes2014/ocean_tide_extrapolated/mks2.nc"; VStr "fes2014/ocean_tide_extrapolated/mm.nc"; VStr "fes2014/ocean_tide_extrapolated/mn4.nc"; VStr "fes2014/ocean_tide_extrapolated/ms4.nc"; VStr "fes2014/ocean_tide_extrapolated/msf.nc"; VStr "fes2014/ocean_tide_extrapolated/msqm.nc"; VStr "fes2014/ocean_tide_extrapolated/mtm.nc"; VStr "fes2014/ocean_tide_extrapolated/mu2.nc"; VStr "fes2014/ocean_tide_extrapolated/n2.nc"; VStr "fes2014/ocean_tide_extrapolated/n4.nc"; VStr "fes2014/ocean_tide_extrapolated/nu2.nc"; VStr "fes2014/ocean_tide_extrapolated/o1.nc"; VStr "fes2014/ocean_tide_extrapolated/p1.nc"; VStr "fes2014/ocean_tide_extrapolated/q1.nc"; VStr "fes2014/ocean_tide_extrapolated/r2.nc"; VStr "fes2014/ocean_tide_extrapolated/s1.nc"; VStr "fes2014/ocean_tide_extrapolated/s2.nc"; VStr "fes2014/ocean_tide_extrapolated/s4.nc"; VStr "fes2014/ocean_tide_extrapolated/sa.nc"; VStr "fes2014/ocean_tide_extrapolated/ssa.nc"; VStr "fes2014/ocean_tide_extrapolated/t2.nc"]);
     ("name", VStr "FES2014");
     ("reference", VStr "https://www.aviso.altimetry.fr/en/data/products/auxiliary-products/global-tide-fes.html");
     ("scale", VNum (1 # 100));
     ("type", VStr "z");
     ("variable", VStr "tide_ocean");
     ("version", VStr "FES2014")]);
   ("FES2014_load",
    [("format", VStr "FES-netcdf");
     ("model_file", VList [VStr "fes2014/load_tide/2n2.nc"; VStr "fes2014/load_tide/eps2.nc"; VStr "fes2014/load_tide/j1.nc"; VStr "fes2014/load_tide/k1.nc"; VStr "fes2014/load_tide/k2.nc"; VStr "fes2014/load_tide/l2.nc"; VStr "fes2014/load_tide/la2.nc"; VStr "fes2014/load_tide/m2.nc"; VStr "fes2014/load_tide/m3.nc"; VStr "fes2014/load_tide/m4.nc"; VStr "fes2014/load_tide/m6.nc"; VStr "fes2014/load_tide/m8.nc"; VStr "fes2014/load_tide/mf.nc"; VStr "fes2014/load_tide/mks2.nc"; VStr "fes2014/load_tide/mm.nc"; VStr "fes2014/load_tide/mn4.nc"; VStr "fes2014/load_tide/ms4.nc"; VStr "fes2014/load_tide/msf.nc"; VStr "fes2014/load_tide/msqm.nc"; VStr "fes2014/load_tide/mtm.nc"; VStr "fes2014/load_tide/mu2.nc"; VStr "fes2014/load_tide/n2.nc"; VStr "fes2014/load_tide/n4.nc"; VStr "fes2014/load_tide/nu2.nc"; VStr "fes2014/load_tide/o1.nc"; VStr "fes2014/load_tide/p1.nc"; VStr "fes2014/load_tide/q1.nc"; VStr "fes2014/load_tide/r2.nc"; VStr "fes2014/load_tide/s1.nc"; VStr "fes2014/load_tide/s2.nc"; VStr "fes2014/load_tide/s4.nc"; VStr "fes2014/load_tide/sa.nc"; VStr "fes2014/load_tide/ssa.nc"; VStr "fes2014/load_tide/t2.nc"]);
     ("name", VStr "FES2014_load");
     ("reference", VStr "https://www.aviso.altimetry.fr/en/data/products/auxiliary-products/global-tide-fes.html");
     ("scale", VNum (1 # 100));
     ("type", VStr "z");
     ("variable", VStr "tide_load");
     ("version", VStr "FES2014")]);
   ("FES2022",
    [("format", VStr "FES-netcdf");
     ("model_file", VList [VStr "fes2022b/ocean_tide_20241025/2n2_fes2022.nc"; VStr "fes2022b/ocean_tide_20241025/eps2_fes2022.nc"; VStr "fes2022b/ocean_tide_20241025/j1_fes2022.nc"; VStr "fes2022b/ocean_tide_20241025/k1_fes2022.nc"; VStr "fes2022b/ocean_tide_20241025/k2_fes2022.nc"; VStr "fes2022b/ocean_tide_20241025/l2_fes2022.nc"; VStr "fes2022b/ocean_tide_20241025/lambda2_fes2022.nc"; VStr "fes2022b/ocean_tide_20241025/m2_fes2022.nc"; VStr "fes2022b/ocean_tide_20241025/m3_fes2022.nc"; VStr "fes2022b/ocean_tide_20241025/m4_fes2022.nc"; VStr "fes2022b/ocean_tide_20241025/m6_fes2022.nc"; VStr "fes2022b/ocean_tide_20241025/m8_fes2022.nc"; VStr "fes2022b/ocean_tide_20241025/mf_fes2022.nc"; VStr "fes2022b/ocean_tide_20241025/mks2_fes2022.nc"; VStr "fes2022b/ocean_tide_20241025/mm_fes2022.nc"; VStr "fes2022b/ocean_tide_20241025/mn4_fes2022.nc"; VStr "fes2022b/ocean_tide_20241025/ms4_fes2022.nc"; VStr "fes2022b/ocean_tide_20241025/msf_fes2022.nc"; VStr "fes2022b/ocean_tide_20241025/msqm_fes2022.nc"; VStr "fes2022b/ocean_tide_20241025/mtm_fes2022.nc"; VStr "fes2022b/ocean_tide_20241025/mu2_fes2022.nc"; VStr "fes2022b/ocean_tide_20241025/n2_fes2022.nc"; VStr "fes2022b/ocean_tide_20241025/n4_fes2022.nc"; VStr "fes2022b/ocean_tide_20241025/nu2_fes2022.nc"; VStr "fes2022b/ocean_tide_20241025/o1_fes2022.nc"; VStr "fes2022b/ocean_tide_20241025/p1_fes2022.nc"; VStr "fes2022b/ocean_tide_20241025/q1_fes2022.nc"; VStr "fes2022b/ocean_tide_20241025/r2_fes2022.nc"; VStr "fes2022b/ocean_tide_20241025/s1_fes2022.nc"; VStr "fes2022b/ocean_tide_20241025/s2_fes2022.nc"; VStr "fes2022b/ocean_tide_20241025/s4_fes2022.nc"; VStr "fes2022b/ocean_tide_20241025/sa_fes2022.nc"; VStr "fes2022b/ocean_tide_20241025/ssa_fes2022.nc"; VStr "fes2022b/ocean_tide_20241025/t2_fes2022.nc"]);
     ("name", VStr "FES2022");
     ("reference", VStr "https://doi.org/10.24400/527896/A01-2024.004");
     ("scale", VNum (1 # 100));
     ("type", VStr "z");
     ("variable", VStr "tide_ocean");
     ("version", VStr "FES2022")]);
   ("FES2022_extrapolated",
    [("format", VStr "FES-netcdf");
     ("model_file", VList [VStr "fes2022b/ocean_tide_extrapolated/2n2_fes2022.nc"; VStr "fes2022b/ocean_tide_extrapolated/eps2_fes2022.nc"; VStr "fes2022b/ocean_tide_extrapolated/j1_fes2022.nc"; VStr "fes2022b/ocean_tide_extrapolated/k1_fes2022.nc"; VStr "fes2022b/ocean_tide_extrapolated/k2_fes2022.nc"; VStr "fes2022b/ocean_tide_extrapolated/l2_fes2022.nc"; VStr "fes2022b/ocean_tide_extrapolated/lambda2_fes2022.nc"; VStr "fes2022b/ocean_tide_extrapolated/m2_fes2022.nc"; VStr "fes2022b/ocean_tide_extrapolated/m3_fes2022.nc"; VStr "fes2022b/ocean_tide_extrapolated/m4_fes2022.nc"; VStr "fes2022b/ocean_tide_extrapolated/m6_fes2022.nc"; VStr "fes2022b/ocean_tide_extrapolated/m8_fes2022.nc"; VStr "fes2022b/ocean_tide_extrapolated/mf_fes2022.nc"; VStr "fes2022b/ocean_tide_extrapolated/mks2_fes2022.nc"; VStr "fes2022b/ocean_tide_extrapolated/mm_fes2022.nc"; VStr "fes2022b/ocean_tide_extrapolated/mn4_fes2022.nc"; VStr "fes2022b/ocean_tide_extrapolated/ms4_fes2022.nc"; VStr "fes2022b/ocean_tide_extrapolated/msf_fes2022.nc"; VStr "fes2022b/ocean_tide_extrapolated/msqm_fes2022.nc"; VStr "fes2022b/ocean_tide_extrapolated/mtm_fes2022.nc"; VStr "fes2022b/ocean_tide_extrapolated/mu2_fes2022.nc"; VStr "fes2022b/ocean_tide_extrapolated/n2_fes2022.nc"; VStr "fes2022b/ocean_tide_extrapolated/n4_fes2022.nc"; VStr "fes2022b/ocean_tide_extrapolated/nu2_fes2022.nc"; VStr "fes2022b/ocean_tide_extrapolated/o1_fes2022.nc"; VStr "fes2022b/ocean_tide_extrapolated/p1_fes2022.nc"; VStr "fes2022b/ocean_tide_extrapolated/q1_fes2022.nc"; VStr "fes2022b/ocean_tide_extrapolated/r2_fes2022.nc"; VStr "fes2022b/ocean_tide_extrapolated/s1_fes2022.nc"; VStr "fes2022b/ocean_tide_extrapolated/s2_fes2022.nc"; VStr "fes2022b/ocean_tide_extrapolated/s4_fes2022.nc"; VStr "fes2022b/ocean_tide_extrapolated/sa_fes2022.nc"; VStr "fes2022b/ocean_tide_extrapolated/ssa_fes2022.nc"; VStr "fes2022b/ocean_tide_extrapolated/t2_fes2022.nc"]);
     ("name", VStr "FES2022");
     ("reference", VStr "https://doi.org/10.24400/527896/A01-2024.004");
     ("scale", VNum (1 # 100));
     ("type", VStr "z");
     ("variable", VStr "tide_ocean");
     ("version", VStr "FES2022")]);
   ("FES2022_load",
    [("format", VStr "FES-netcdf");
     ("model_file", VList [VStr "fes2022b/load_tide/2n2_fes2022.nc"; VStr "fes2022b/load_tide/eps2_fes2022.nc"; VStr "fes2022b/load_tide/j1_fes2022.nc"; VStr "fes2022b/load_tide/k1_fes2022.nc"; VStr "fes2022b/load_tide/k2_fes2022.nc"; VStr "fes2022b/load_tide/l2_fes2022.nc"; VStr "fes2022b/load_tide/lambda2_fes2022.nc"; VStr "fes2022b/load_tide/m2_fes2022.nc"; VStr "fes2022b/load_tide/m3_fes2022.nc"; VStr "fes2022b/load_tide/m4_fes2022.nc"; VStr "fes2022b/load_tide/m6_fes2022.nc"; VStr "fes2022b/load_tide/m8_fes2022.nc"; VStr "fes2022b/load_tide/mf_fes2022.nc"; VStr "fes2022b/load_tide/mks2_fes2022.nc"; VStr "fes2022b/load_tide/mm_fes2022.nc"; VStr "fes2022b/load_tide/mn4_fes2022.nc"; VStr "fes2022b/load_tide/ms4_fes2022.nc"; VStr "fes2022b/load_tide/msf_fes2022.nc"; VStr "fes2022b/load_tide/msqm_fes2022.nc"; VStr "fes2022b/load_tide/mtm_fes2022.nc"; VStr "fes2022b/load_tide/mu2_fes2022.nc"; VStr "fes2022b/load_tide/n2_fes2022.nc"; VStr "fes2022b/load_tide/n4_fes2022.nc"; VStr "fes2022b/load_tide/nu2_fes2022.nc"; VStr "fes2022b/load_tide/o1_fes2022.nc"; VStr "fes2022b/load_tide/p1_fes2022.nc"; VStr "fes2022b/load_tide/q1_fes2022.nc"; VStr "fes2022b/load_tide/r2_fes2022.nc"; VStr "fes2022b/load_tide/s1_fes2022.nc"; VStr "fes2022b/load_tide/s2_fes2022.nc"; VStr "fes2022b/load_tide/s4_fes2022.nc"; VStr "fes2022b/load_tide/sa_fes2022.nc"; VStr "fes2022b/load_tide/ssa_fes2022.nc"; VStr "fes2022b/load_tide/t2_fes2022.nc"]);
     ("name", VStr "FES2022_load");
     ("reference", VStr "https://doi.org/10.24400/527896/A01-2024.004");
     ("scale", VNum (1 # 100));
     ("type", VStr "z");
     ("variable", VStr "tide_load");
     ("version", VStr "FES2022")]);
   ("GOT4.10",
    [("format", VStr "GOT-ascii");
     ("model_file", VList [VStr "GOT4.10c/grids_oceantide/q1.d"; VStr "GOT4.10c/grids_oceantide/o1.d"; VStr "GOT4.10c/grids_oceantide/p1.d"; VStr "GOT4.10c/grids_oceantide/k1.d"; VStr "GOT4.10c/grids_oceantide/n2.d"; VStr "GOT4.10c/grids_oceantide/m2.d"; VStr "GOT4.10c/grids_oceantide/s2.d"; VStr "GOT4.10c/grids_oceantide/k2.d"; VStr "GOT4.10c/grids_oceantide/s1.d"; VStr "GOT4.10c/grids_oceantide/m4.d"]);
     ("name", VStr "GOT4.10");
     ("reference", VStr "https://ntrs.nasa.gov/citations/19990089548");
     ("scale", VNum (1 # 100));
     ("type", VStr "z");
     ("variable", VStr "tide_ocean");
     ("version", VStr "4.10")]);
   ("GOT4.10_load",
    [("format", VStr "GOT-ascii");
     ("model_file", VList [VStr "GOT4.10c/grids_loadtide/q1load.d"; VStr "GOT4.10c/grids_loadtide/o1load.d"; VStr "GOT4.10c/grids_loadtide/p1load.d"; VStr "GOT4.10c/grids_loadtide/k1load.d"; VStr "GOT4.10c/grids_loadtide/n2load.d"; VStr "GOT4.10c/grids_loadtide/m2load.d"; VStr "GOT4.10c/grids_loadtide/s2load.d"; VStr "GOT4.10c/grids_loadtide/k2load.d"; VStr "GOT4.10c/grids_loadtide/s1load.d"; VStr "GOT4.10c/grids_loadtide/m4load.d"]);
     ("name", VStr "GOT4.10_load");
     ("reference", VStr "https://ntrs.nasa.gov/citations/19990089548");
     ("scale", VNum (1 # 1000));
     ("type", VStr "z");
     ("variable", VStr "tide_load");
     ("version", VStr "4.10")]);
   ("GOT4.7",
    [("format", VStr "GOT-ascii");
     ("model_file", VList [VStr "GOT4.7/grids_oceantide/q1.d"; VStr "GOT4.7/grids_oceantide/o1.d"; VStr "GOT4.7/grids_oceantide/p1.d"; VStr "GOT4.7/grids_oceantide/k1.d"; VStr "GOT4.7/grids_oceantide/n2.d"; VStr "GOT4.7/grids_oceantide/m2.d"; VStr "GOT4.7/grids_oceantide/s2.d"; VStr "GOT4.7/grids_oceantide/k2.d"; VStr "GOT4.7/grids_oceantide/s1.d"; VStr "GOT4.7/grids_oceantide/m4.d"]);
     ("name", VStr "GOT4.7");
     ("reference", VStr "https://ntrs.nasa.gov/citations/19990089548");
     ("scale", VNum (1 # 100));
     ("type", VStr "z");
     ("variable", VStr "tide_ocean");
     ("version", VStr "4.7")]);
   ("GOT4.7_load",
    [("format", VStr "GOT-ascii");
     ("model_file", VList [VStr "GOT4.7/grids_loadtide/q1load.d"; VStr "GOT4.7/grids_loadtide/o1load.d"; VStr "GOT4.7/grids_loadtide/p1load.d"; VStr "GOT4.7/grids_loadtide/k1load.d"; VStr "GOT4.7/grids_loadtide/n2load.d"; VStr "GOT4.7/grids_loadtide/m2load.d"; VStr "GOT4.7/grids_loadtide/s2load.d"; VStr "GOT4.7/grids_loadtide/k2load.d"; VStr "GOT4.7/grids_loadtide/s1load.d"; VStr "GOT4.7/grids_loadtide/m4load.d"]);
     ("name", VStr "GOT4.7_load");
     ("reference", VStr "https://ntrs.nasa.gov/citations/19990089548");
     ("scale", VNum (1 # 1000));
     ("type", VStr "z");
     ("variable", VStr "tide_load");
     ("version", VStr "4.7")]);
   ("GOT4.8",
    [("format", VStr "GOT-ascii");
     ("model_file", VList [VStr "got4.8/grids_oceantide/q1.d"; VStr "got4.8/grids_oceantide/o1.d"; VStr "got4.8/grids_oceantide/p1.d"; VStr "got4.8/grids_oceantide/k1.d"; VStr "got4.8/grids_oceantide/n2.d"; VStr "got4.8/grids_oceantide/m2.d"; VStr "got4.8/grids_oceantide/s2.d"; VStr "got4.8/grids_oceantide/k2.d"; VStr "got4.8/grids_oceantide/s1.d"; VStr "got4.8/grids_oceantide/m4.d"]);
     ("name", VStr "GOT4.8");
     ("reference", VStr "https://ntrs.nasa.gov/citations/19990089548");
     ("scale", VNum (1 # 100));
     ("type", VStr "z");
     ("variable", VStr "tide_ocean");
     ("version", VStr "4.8")]);
   ("GOT4.8_load",
    [("format", VStr "GOT-ascii");
     ("model_file", VList [VStr "got4.8/grids_loadtide/q1load.d"; VStr "got4.8/grids_loadtide/o1load.d"; VStr "got4.8/grids_loadtide/p1load.d"; VStr "got4.8/grids_loadtide/k1load.d"; VStr "got4.8/grids_loadtide/n2load.d"; VStr "got4.8/grids_loadtide/m2load.d"; VStr "got4.8/grids_loadtide/s2load.d"; VStr "got4.8/grids_loadtide/k2load.d"; VStr "got4.8/grids_loadtide/s1load.d"; VStr "got4.8/grids_loadtide/m4load.d"]);
     ("name", VStr "GOT4.8_load");
     ("reference", VStr "https://ntrs.nasa.gov/citations/19990089548");
     ("scale", VNum (1 # 1000));
     ("type", VStr "z");
     ("variable", VStr "tide_load");
     ("version", VStr "4.8")]);
   ("GOT5.5",
    [("format", VStr "GOT-netcdf");
     ("model_file", VList [VStr "GOT5.5/ocean_tides/2n2.nc"; VStr "GOT5.5/ocean_tides/j1.nc"; VStr "GOT5.5/ocean_tides/k1.nc"; VStr "GOT5.5/ocean_tides/k2.nc"; VStr "GOT5.5/ocean_tides/m2.nc"; VStr "GOT5.5/ocean_tides/m4.nc"; VStr "GOT5.5/ocean_tides/ms4.nc"; VStr "GOT5.5/ocean_tides/mu2.nc"; VStr "GOT5.5/ocean_tides/n2.nc"; VStr "GOT5.5/ocean_tides/o1.nc"; VStr "GOT5.5/ocean_tides/oo1.nc"; VStr "GOT5.5/ocean_tides/p1.nc"; VStr "GOT5.5/ocean_tides/q1.nc"; VStr "GOT5.5/ocean_tides/s1.nc"; VStr "GOT5.5/ocean_tides/s2.nc"; VStr "GOT5.5/ocean_tides/sig1.nc"]);
     ("name", VStr "GOT5.5");
     ("reference", VStr "https://ntrs.nasa.gov/citations/19990089548");
     ("scale", VNum (1 # 100));
     ("type", VStr "z");
     ("variable", VStr "tide_ocean");
     ("version", VStr "5.5")]);
   ("GOT5.5D",
    [("format", VStr "GOT-netcdf");
     ("model_file", VList [VStr "GOT5.5/ocean_tides/2n2.nc"; VStr "GOT5.5/ocean_tides/j1.nc"; VStr "GOT5.5D/ocean_tides/k1_5.5D.nc"; VStr "GOT5.5/ocean_tides/k2.nc"; VStr "GOT5.5D/ocean_tides/m2_5.5D.nc"; VStr "GOT5.5/ocean_tides/m4.nc"; VStr "GOT5.5/ocean_tides/ms4.nc"; VStr "GOT5.5/ocean_tides/mu2.nc"; VStr "GOT5.5/ocean_tides/n2.nc"; VStr "GOT5.5/ocean_tides/o1.nc"; VStr "GOT5.5/ocean_tides/oo1.nc"; VStr "GOT5.5D/ocean_tides/p1_5.5D.nc"; VStr "GOT5.5/ocean_tides/q1.nc"; VStr "GOT5.5D/ocean_tides/s1_5.5D.nc"; VStr "GOT5.5D/ocean_tides/s2_5.5D.nc"; VStr "GOT5.5/ocean_tides/sig1.nc"]);
     ("name", VStr "GOT5.5D");
     ("reference", VStr "https://ntrs.nasa.gov/citations/19990089548");
     ("scale", VNum (1 # 100));
     ("type", VStr "z");
     ("variable", VStr "tide_ocean");
     ("version", VStr "5.5")]);
   ("GOT5.5D_extrapolated",
    [("format", VStr "GOT-netcdf");
     ("model_file", VList [VStr "GOT5.5/extrapolated/2n2x.nc"; VStr "GOT5.5/extrapolated/j1x.nc"; VStr "GOT5.5D/extrapolated/k1_5.5Dx.nc"; VStr "GOT5.5/extrapolated/k2x.nc"; VStr "GOT5.5D/extrapolated/m2_5.5Dx.nc"; VStr "GOT5.5/extrapolated/m4x.nc"; VStr "GOT5.5/extrapolated/ms4x.nc"; VStr "GOT5.5/extrapolated/mu2x.nc"; VStr "GOT5.5/extrapolated/n2x.nc"; VStr "GOT5.5/extrapolated/o1x.nc"; VStr "GOT5.5/extrapolated/oo1x.nc"; VStr "GOT5.5D/extrapolated/p1_5.5Dx.nc"; VStr "GOT5.5/extrapolated/q1x.nc"; VStr "GOT5.5D/extrapolated/s1_5.5Dx.nc"; VStr "GOT5.5D/extrapolated/s2_5.5Dx.nc"; VStr "GOT5.5/extrapolated/sig1x.nc"]);
     ("name", VStr "GOT5.5D");
     ("reference", VStr "https://ntrs.nasa.gov/citations/19990089548");
     ("scale", VNum (1 # 100));
     ("type", VStr "z");
     ("variable", VStr "tide_ocean");
     ("version", VStr "5.5")]);
   ("GOT5.5_extrapolated",
    [("format", VStr "GOT-netcdf");
     ("model_file", VList [VStr "GOT5.5/extrapolated/2n2x.nc"; VStr "GOT5.5/extrapolated/j1x.nc"; VStr "GOT5.5/extrapolated/k1x.nc"; VStr "GOT5.5/extrapolated/k2x.nc"; VStr "GOT5.5/extrapolated/m2x.nc"; VStr "GOT5.5/extrapolated/m4x.nc"; VStr "GOT5.5/extrapolated/ms4x.nc"; VStr "GOT5.5/extrapolated/mu2x.nc"; VStr "GOT5.5/extrapolated/n2x.nc"; VStr "GOT5.5/extrapolated/o1x.nc"; VStr "GOT5.5/extrapolated/oo1x.nc"; VStr "GOT5.5/extrapolated/p1x.nc"; VStr "GOT5.5/extrapolated/q1x.nc"; VStr "GOT5.5/extrapolated/s1x.nc"; VStr "GOT5.5/extrapolated/s2x.nc"; VStr "GOT5.5/extrapolated/sig1x.nc"]);
     ("name", VStr "GOT5.5");
     ("reference", VStr "https://ntrs.nasa.gov/citations/19990089548");
     ("scale", VNum (1 # 100));
     ("type", VStr "z");
     ("variable", VStr "tide_ocean");
     ("version", VStr "5.5")]);
   ("GOT5.5_load",
    [("format", VStr "GOT-netcdf");
     ("model_file", VList [VStr "GOT5.5/load_tides/2n2load.nc"; VStr "GOT5.5/load_tides/k1load.nc"; VStr "GOT5.5/load_tides/m2load.nc"; VStr "GOT5.5/load_tides/ms4load.nc"; VStr "GOT5.5/load_tides/n2load.nc"; VStr "GOT5.5/load_tides/oo1load.nc"; VStr "GOT5.5/load_tides/q1load.nc"; VStr "GOT5.5/load_tides/s2load.nc"; VStr "GOT5.5/load_tides/j1load.nc"; VStr "GOT5.5/load_tides/k2load.nc"; VStr "GOT5.5/load_tides/m4load.nc"; VStr "GOT5.5/load_tides/mu2load.nc"; VStr "GOT5.5/load_tides/o1load.nc"; VStr "GOT5.5/load_tides/p1load.nc"; VStr "GOT5.5/load_tides/s1load.nc"; VStr "GOT5.5/load_tides/sig1load.nc"]);
     ("name", VStr "GOT5.5_load");
     ("reference", VStr "https://ntrs.nasa.gov/citations/19990089548");
     ("scale", VNum (1 # 1000));
     ("type", VStr "z");
     ("variable", VStr "tide_load");
     ("version", VStr "5.5")]);
   ("GOT5.6",
    [("format", VStr "GOT-netcdf");
     ("model_file", VList [VStr "GOT5.5/ocean_tides/2n2.nc"; VStr "GOT5.5/ocean_tides/j1.nc"; VStr "GOT5.5/ocean_tides/k1.nc"; VStr "GOT5.5/ocean_tides/k2.nc"; VStr "GOT5.6/ocean_tides/l2'.nc"; VStr "GOT5.6/ocean_tides/m1'.nc"; VStr "GOT5.5/ocean_tides/m2.nc"; VStr "GOT5.6/ocean_tides/m3.nc"; VStr "GOT5.5/ocean_tides/m4.nc"; VStr "GOT5.5/ocean_tides/ms4.nc"; VStr "GOT5.5/ocean_tides/mu2.nc"; VStr "GOT5.5/ocean_tides/n2.nc"; VStr "GOT5.6/ocean_tides/n2'.nc"; VStr "GOT5.5/ocean_tides/o1.nc"; VStr "GOT5.5/ocean_tides/oo1.nc"; VStr "GOT5.5/ocean_tides/p1.nc"; VStr "GOT5.5/ocean_tides/q1.nc"; VStr "GOT5.5/ocean_tides/s1.nc"; VStr "GOT5.5/ocean_tides/s2.nc"; VStr "GOT5.5/ocean_tides/sig1.nc"]);
     ("name", VStr "GOT5.6");
     ("reference", VStr "https://doi.org/10.1126/sciadv.abd4744");
     ("scale", VNum (1 # 100));
     ("type", VStr "z");
     ("variable", VStr "tide_ocean");
     ("version", VStr "5.6")]);
   ("GOT5.6_extrapolated",
    [("format", VStr "GOT-netcdf");
     ("model_file", VList [VStr "GOT5.5/extrapolated/2n2x.nc"; VStr "GOT5.5/extrapolated/j1x.nc"; VStr "GOT5.5/extrapolated/k1x.nc"; VStr "GOT5.5/extrapolated/k2x.nc"; VStr "GOT5.6/extrapolated/l2'x.nc"; VStr "GOT5.6/extrapolated/m1'x.nc"; VStr "GOT5.5/extrapolated/m2x.nc"; VStr "GOT5.6/extrapolated/m3x.nc"; VStr "GOT5.5/extrapolated/m4x.nc"; VStr "GOT5.5/extrapolated/ms4x.nc"; VStr "GOT5.5/extrapolated/mu2x.nc"; VStr "GOT5.5/extrapolated/n2x.nc"; VStr "GOT5.6/extrapolated/n2'x.nc"; VStr "GOT5.5/extrapolated/o1x.nc"; VStr "GOT5.5/extrapolated/oo1x.nc"; VStr "GOT5.5/extrapolated/p1x.nc"; VStr "GOT5.5/extrapolated/q1x.nc"; VStr "GOT5.5/extrapolated/s1x.nc"; VStr "GOT5.5/extrapolated/s2x.nc"; VStr "GOT5.5/extrapolated/sig1x.nc"]);
     ("name", VStr "GOT5.6");
     ("reference", VStr "https://doi.org/10.1126/sciadv.abd4744");
     ("scale", VNum (1 # 100));
     ("type", VStr "z");
     ("variable", VStr "tide_ocean");
     ("version", VStr "5.6")]);
   ("Gr1km-v2",
    [("format", VStr "OTIS");
     ("grid_file", VStr "greenlandTMD_v2/grid_Greenland8.v2");
     ("model_file", VStr "greenlandTMD_v2/h_Greenland8.v2");
     ("name", VStr "Gr1km-v2");
     ("projection", VDict [("datum", VStr "WGS84"); ("lat_0", VNum (90 # 1)); ("lat_ts", VNum (70 # 1)); ("lon_0", VNum ((-45) # 1)); ("proj", VStr "stere"); ("type", VStr "crs"); ("units", VStr "km"); ("x_0", VNum (0 # 1)); ("y_0", VNum (0 # 1))]);
     ("reference", VStr "https://doi.org/10.1002/2016RG000546");
     ("type", VStr "z");
     ("variable", VStr "tide_ocean");
     ("version", VStr "v2")]);
   ("Gr1kmTM",
    [("format", VStr "OTIS");
     ("grid_file", VStr "Gr1kmTM/grid_Gr1kmTM_v1");
     ("model_file", VStr "Gr1kmTM/h_Gr1kmTM_v1");
     ("name", VStr "Gr1kmTM");
     ("projection", VDict [("datum", VStr "WGS84"); ("lat_0", VNum (90 # 1)); ("lat_ts", VNum (70 # 1)); ("lon_0", VNum ((-45) # 1)); ("proj", VStr "stere"); ("type", VStr "crs"); ("units", VStr "km"); ("x_0", VNum (0 # 1)); ("y_0", VNum (0 # 1))]);
     ("reference", VStr "https://doi.org/10.18739/A2B853K18");
     ("type", VStr "z");
     ("variable", VStr "tide_ocean");
     ("version", VStr "v1")]);
   ("HAMTIDE11",
    [("format", VStr "FES-netcdf");
     ("model_file", VList [VStr "hamtide/2n.hamtide11a.nc"; VStr "hamtide/k1.hamtide11a.nc"; VStr "hamtide/k2.hamtide11a.nc"; VStr "hamtide/m2.hamtide11a.nc"; VStr "hamtide/n2.hamtide11a.nc"; VStr "hamtide/o1.hamtide11a.nc"; VStr "hamtide/p1.hamtide11a.nc"; VStr "hamtide/q1.hamtide11a.nc"; VStr "hamtide/s2.hamtide11a.nc"]);
     ("name", VStr "HAMTIDE11");
     ("reference", VStr "https://doi.org/10.1002/2013JC009766");
     ("scale", VNum (1 # 100));
     ("type", VStr "z");
     ("variable", VStr "tide_ocean");
     ("version", VStr "HAMTIDE11")]);
   ("RE14",
    [("format", VStr "GOT-netcdf");
     ("model_file", VList [VStr "RE14_LongPeriodTides_rel/oceantides/Mf_RE14_oceantide.nc"; VStr "RE14_LongPeriodTides_rel/oceantides/Mm_RE14_oceantide.nc"; VStr "RE14_LongPeriodTides_rel/oceantides/Mt_RE14_oceantide.nc"; VStr "RE14_LongPeriodTides_rel/oceantides/Node_RE14_oceantide.nc"; VStr "RE14_LongPeriodTides_rel/oceantides/Sa_RE14_oceantide.nc"; VStr "RE14_LongPeriodTides_rel/oceantides/Ssa_RE14_oceantide.nc"]);
     ("name", VStr "RE14");
     ("reference", VStr "https://doi.org/10.1002/2013JB010830");
     ("scale", VNum (1 # 100));
     ("type", VStr "z");
     ("variable", VStr "tide_lpe");
     ("version", VStr "2014")]);
   ("TPXO10-atlas-v2",
    [("format", VStr "OTIS");
     ("grid_file", VStr "TPXO10_atlas_v2/grid_tpxo10_atlas_30_v2");
     ("model_file", VList [VStr "TPXO10_atlas_v2/h_2n2_tpxo10_atlas_30_v2"; VStr "TPXO10_atlas_v2/h_k1_tpxo10_atlas_30_v2"; VStr "TPXO10_atlas_v2/h_k2_tpxo10_atlas_30_v2"; VStr "TPXO10_atlas_v2/h_m2_tpxo10_atlas_30_v2"; VStr "TPXO10_atlas_v2/h_m4_tpxo10_atlas_30_v2"; VStr "TPXO10_atlas_v2/h_mf_tpxo10_atlas_30_v2"; VStr "TPXO10_atlas_v2/h_mm_tpxo10_atlas_30_v2"; VStr "TPXO10_atlas_v2/h_mn4_tpxo10_atlas_30_v2"; VStr "TPXO10_atlas_v2/h_ms4_tpxo10_atlas_30_v2"; VStr "TPXO10_atlas_v2/h_n2_tpxo10_atlas_30_v2"; VStr "TPXO10_atlas_v2/h_o1_tpxo10_atlas_30_v2"; VStr "TPXO10_atlas_v2/h_p1_tpxo10_atlas_30_v2"; VStr "TPXO10_atlas_v2/h_q1_tpxo10_atlas_30_v2"; VStr "TPXO10_atlas_v2/h_s1_tpxo10_atlas_30_v2"; VStr "TPXO10_atlas_v2/h_s2_tpxo10_atlas_30_v2"]);
     ("name", VStr "TPXO10-atlas-v2");
     ("projection", VStr "EPSG:4326");
     ("reference", VStr "https://www.tpxo.net/global/tpxo10-atlas");
     ("scale", VNum (1 # 1000));
     ("type", VStr "z");
     ("variable", VStr "tide_ocean");
     ("version", VStr "v2")]);
   ("TPXO10-atlas-v2-nc",
    [("format", VStr "ATLAS-netcdf");
     ("grid_file", VStr "TPXO10_atlas_v2/grid_tpxo10atlas_v2.nc");
     ("model_file", VList [VStr "TPXO10_atlas_v2/h_2n2_tpxo10_atlas_30_v2.nc"; VStr "TPXO10_atlas_v2/h_k1_tpxo10_atlas_30_v2.nc"; VStr "TPXO10_atlas_v2/h_k2_tpxo10_atlas_30_v2.nc"; VStr "TPXO10_atlas_v2/h_m2_tpxo10_atlas_30_v2.nc"; VStr "TPXO10_atlas_v2/h_m4_tpxo10_atlas_30_v2.nc"; VStr "TPXO10_atlas_v2/h_mf_tpxo10_atlas_30_v2.nc"; VStr "TPXO10_atlas_v2/h_mm_tpxo10_atlas_30_v2.nc"; VStr "TPXO10_atlas_v2/h_mn4_tpxo10_atlas_30_v2.nc"; VStr "TPXO10_atlas_v2/h_ms4_tpxo10_atlas_30_v2.nc"; VStr "TPXO10_atlas_v2/h_n2_tpxo10_atlas_30_v2.nc"; VStr "TPXO10_atlas_v2/h_o1_tpxo10_atlas_30_v2.nc"; VStr "TPXO10_atlas_v2/h_p1_tpxo10_atlas_30_v2.nc"; VStr "TPXO10_atlas_v2/h_q1_tpxo10_atlas_30_v2.nc"; VStr "TPXO10_atlas_v2/h_s1_tpxo10_atlas_30_v2.nc"; VStr "TPXO10_atlas_v2/h_s2_tpxo10_atlas_30_v2.nc"]);
     ("name", VStr "TPXO10-atlas-v2");
     ("projection", VStr "EPSG:4326");
     ("reference", VStr "https://www.tpxo.net/global/tpxo10-atlas");
     ("scale", VNum (1 # 1000));
     ("type", VStr "z");
     ("variable", VStr "tide_ocean");
     ("version", VStr "v2")]);
   ("TPXO7.2",
    [("format", VStr "OTIS");
     ("grid_file", VStr "TPXO7.2_tmd/grid_tpxo7.2");
     ("model_file", VStr "TPXO7.2_tmd/h_tpxo7.2");
     ("name", VStr "TPXO7.2");
     ("projection", VStr "EPSG:4326");
     ("reference", VStr "http://volkov.oce.orst.edu/tides/global.html");
     ("type", VStr "z");
     ("variable", VStr "tide_ocean");
     ("version", VStr "7.2")]);
   ("TPXO7.2_load",
    [("format", VStr "OTIS");
     ("grid_file", VStr "TPXO7.2_load/grid_tpxo6.2");
     ("model_file", VStr "TPXO7.2_load/h_tpxo7.2_load");
     ("name", VStr "TPXO7.2_load");
     ("projection", VStr "EPSG:4326");
     ("reference", VStr "http://volkov.oce.orst.edu/tides/global.html");
     ("type", VStr "z");
     ("variable", VStr "tide_load");
     ("version", VStr "7.2")]);
   ("TPXO8-atlas",
    [("format", VStr "ATLAS-compact");
     ("grid_file", VStr "tpxo8_atlas/grid_tpxo8atlas_30_v1");
     ("model_file", VStr "tpxo8_atlas/hf.tpxo8_atlas_30_v1");
     ("name", VStr "TPXO8-atlas");
     ("projection", VStr "EPSG:4326");
     ("reference", VStr "http://volkov.oce.orst.edu/tides/tpxo8_atlas.html");
     ("type", VStr "z");
     ("variable", VStr "tide_ocean");
     ("version", VStr "8")]);
   ("TPXO8-atlas-nc",
    [("format", VStr "ATLAS-netcdf");
     ("grid_file", VStr "TPXO8_atlas_v1/grid_tpxo8atlas_30_v1.nc");
     ("model_file", VList [VStr "TPXO8_atlas_v1/hf.k1_tpxo8_atlas_30c_v1.nc"; VStr "TPXO8_atlas_v1/hf.n2_tpxo8_atlas_30c_v1.nc"; VStr "TPXO8_atlas_v1/hf.o1_tpxo8_atlas_30c_v1.nc"; VStr "TPXO8_atlas_v1/hf.q1_tpxo8_atlas_30c_v1.nc"; VStr "TPXO8_atlas_v1/hf.s2_tpxo8_atlas_30c_v1.nc"; VStr "TPXO8_atlas_v1/hf.k2_tpxo8_atlas_30c_v1.nc"; VStr "TPXO8_atlas_v1/hf.p1_tpxo8_atlas_30c_v1.nc"; VStr "TPXO8_atlas_v1/hf.m4_tpxo8_atlas_30c_v1.nc"; VStr "TPXO8_atlas_v1/hf.m2_tpxo8_atlas_30c_v1.nc"]);
     ("name", VStr "TPXO8-atlas-nc");
     ("reference", VStr "http://volkov.oce.orst.edu/tides/tpxo8_atlas.html");
     ("scale", VNum (1 # 1000));
     ("type", VStr "z");
     ("variable", VStr "tide_ocean");
     ("version", VStr "v1")]);
   ("TPXO9-atlas",
    [("format", VStr "OTIS");
     ("grid_file", VStr "TPXO9_atlas/grid_tpxo9_atlas");
     ("model_file", VList [VStr "TPXO9_atlas/h_q1_tpxo9_atlas_30"; VStr "TPXO9_atlas/h_o1_tpxo9_atlas_30"; VStr "TPXO9_atlas/h_p1_tpxo9_atlas_30"; VStr "TPXO9_atlas/h_k1_tpxo9_atlas_30"; VStr "TPXO9_atlas/h_n2_tpxo9_atlas_30"; VStr "TPXO9_atlas/h_m2_tpxo9_atlas_30"; VStr "TPXO9_atlas/h_s2_tpxo9_atlas_30"; VStr "TPXO9_atlas/h_k2_tpxo9_atlas_30"; VStr "TPXO9_atlas/h_m4_tpxo9_atlas_30"; VStr "TPXO9_atlas/h_ms4_tpxo9_atlas_30"; VStr "TPXO9_atlas/h_mn4_tpxo9_atlas_30"; VStr "TPXO9_atlas/h_2n2_tpxo9_atlas_30"]);
     ("name", VStr "TPXO9-atlas");
     ("projection", VStr "EPSG:4326");
     ("reference", VStr "http://volkov.oce.orst.edu/tides/tpxo9_atlas.html");
     ("scale", VNum (1 # 1000));
     ("type", VStr "z");
     ("variable", VStr "tide_ocean");
     ("version", VStr "v1")]);
   ("TPXO9-atlas-nc",
    [("format", VStr "ATLAS-netcdf");
     ("grid_file", VStr "TPXO9_atlas/grid_tpxo9_atlas.nc");
     ("model_file", VList [VStr "TPXO9_atlas/h_q1_tpxo9_atlas_30.nc"; VStr "TPXO9_atlas/h_o1_tpxo9_atlas_30.nc"; VStr "TPXO9_atlas/h_p1_tpxo9_atlas_30.nc"; VStr "TPXO9_atlas/h_k1_tpxo9_atlas_30.nc"; VStr "TPXO9_atlas/h_n2_tpxo9_atlas_30.nc"; VStr "TPXO9_atlas/h_m2_tpxo9_atlas_30.nc"; VStr "TPXO9_atlas/h_s2_tpxo9_atlas_30.nc"; VStr "TPXO9_atlas/h_k2_tpxo9_atlas_30.nc"; VStr "TPXO9_atlas/h_m4_tpxo9_atlas_30.nc"; VStr "TPXO9_atlas/h_ms4_tpxo9_atlas_30.nc"; VStr "TPXO9_atlas/h_mn4_tpxo9_atlas_30.nc"; VStr "TPXO9_atlas/h_2n2_tpxo9_atlas_30.nc"]);
     ("name", VStr "TPXO9-atlas");
     ("projection", VStr "EPSG:4326");
     ("reference", VStr "http://volkov.oce.orst.edu/tides/tpxo9_atlas.html");
     ("scale", VNum (1 # 1000));
     ("type", VStr "z");
     ("variable", VStr "tide_ocean");
     ("version", VStr "v1")]);
   ("TPXO9-atlas-v2",
    [("format", VStr "OTIS");
     ("grid_file", VStr "TPXO9_atlas_v2/grid_tpxo9_atlas_30_v2");
     ("model_file", VList [VStr "TPXO9_atlas_v2/h_q1_tpxo9_atlas_30_v2"; VStr "TPXO9_atlas_v2/h_o1_tpxo9_atlas_30_v2"; VStr "TPXO9_atlas_v2/h_p1_tpxo9_atlas_30_v2"; VStr "TPXO9_atlas_v2/h_k1_tpxo9_atlas_30_v2"; VStr "TPXO9_atlas_v2/h_n2_tpxo9_atlas_30_v2"; VStr "TPXO9_atlas_v2/h_m2_tpxo9_atlas_30_v2"; VStr "TPXO9_atlas_v2/h_s2_tpxo9_atlas_30_v2"; VStr "TPXO9_atlas_v2/h_k2_tpxo9_atlas_30_v2"; VStr "TPXO9_atlas_v2/h_m4_tpxo9_atlas_30_v2"; VStr "TPXO9_atlas_v2/h_ms4_tpxo9_atlas_30_v2"; VStr "TPXO9_atlas_v2/h_mn4_tpxo9_atlas_30_v2"; VStr "TPXO9_atlas_v2/h_2n2_tpxo9_atlas_30_v2"]);
     ("name", VStr "TPXO9-atlas-v2");
     ("projection", VStr "EPSG:4326");
     ("reference", VStr "https://www.tpxo.net/global/tpxo9-atlas");
     ("scale", VNum (1 # 1000));
     ("type", VStr "z");
     ("variable", VStr "tide_ocean");
     ("version", VStr "v2")]);
   ("TPXO9-atlas-v2-nc",
    [("format", VStr "ATLAS-netcdf");
     ("grid_file", VStr "TPXO9_atlas_v2/grid_tpxo9_atlas_30_v2.nc");
     ("model_file", VList [VStr "TPXO9_atlas_v2/h_q1_tpxo9_atlas_30_v2.nc"; VStr "TPXO9_atlas_v2/h_o1_tpxo9_atlas_30_v2.nc"; VStr "TPXO9_atlas_v2/h_p1_tpxo9_atlas_30_v2.nc"; VStr "TPXO9_atlas_v2/h_k1_tpxo9_atlas_30_v2.nc"; VStr "TPXO9_atlas_v2/h_n2_tpxo9_atlas_30_v2.nc"; VStr "TPXO9_atlas_v2/h_m2_tpxo9_atlas_30_v2.nc"; VStr "TPXO9_atlas_v2/h_s2_tpxo9_atlas_30_v2.nc"; VStr "TPXO9_atlas_v2/h_k2_tpxo9_atlas_30_v2.nc"; VStr "TPXO9_atlas_v2/h_m4_tpxo9_atlas_30_v2.nc"; VStr "TPXO9_atlas_v2/h_ms4_tpxo9_atlas_30_v2.nc"; VStr "TPXO9_atlas_v2/h_mn4_tpxo9_atlas_30_v2.nc"; VStr "TPXO9_atlas_v2/h_2n2_tpxo9_atlas_30_v2.nc"]);
     ("name", VStr "TPXO9-atlas-v2");
     ("projection", VStr "EPSG:4326");
     ("reference", VStr "https://www.tpxo.net/global/tpxo9-atlas");
     ("scale", VNum (1 # 1000));
     ("type", VStr "z");
     ("variable", VStr "tide_ocean");
     ("version", VStr "v2")]);
   ("TPXO9-atlas-v3",
    [("format", VStr "OTIS");
     ("grid_file", VStr "TPXO9_atlas_v3/grid_tpxo9_atlas_30_v3");
     ("model_file", VList [VStr "TPXO9_atlas_v3/h_q1_tpxo9_atlas_30_v3"; VStr "TPXO9_atlas_v3/h_o1_tpxo9_atlas_30_v3"; VStr "TPXO9_atlas_v3/h_p1_tpxo9_atlas_30_v3"; VStr "TPXO9_atlas_v3/h_k1_tpxo9_atlas_30_v3"; VStr "TPXO9_atlas_v3/h_n2_tpxo9_atlas_30_v3"; VStr "TPXO9_atlas_v3/h_m2_tpxo9_atlas_30_v3"; VStr "TPXO9_atlas_v3/h_s2_tpxo9_atlas_30_v3"; VStr "TPXO9_atlas_v3/h_k2_tpxo9_atlas_30_v3"; VStr "TPXO9_atlas_v3/h_m4_tpxo9_atlas_30_v3"; VStr "TPXO9_atlas_v3/h_ms4_tpxo9_atlas_30_v3"; VStr "TPXO9_atlas_v3/h_mn4_tpxo9_atlas_30_v3"; VStr "TPXO9_atlas_v3/h_2n2_tpxo9_atlas_30_v3"; VStr "TPXO9_atlas_v3/h_mf_tpxo9_atlas_30_v3"; VStr "TPXO9_atlas_v3/h_mm_tpxo9_atlas_30_v3"]);
     ("name", VStr "TPXO9-atlas-v3");
     ("projection", VStr "EPSG:4326");
     ("reference", VStr "https://www.tpxo.net/global/tpxo9-atlas");
     ("scale", VNum (1 # 1000));
     ("type", VStr "z");
     ("variable", VStr "tide_ocean");
     ("version", VStr "v3")]);
   ("TPXO9-atlas-v3-nc",
    [("format", VStr "ATLAS-netcdf");
     ("grid_file", VStr "TPXO9_atlas_v3/grid_tpxo9_atlas_30_v3.nc");
     ("model_file", VList [VStr "TPXO9_atlas_v3/h_q1_tpxo9_atlas_30_v3.nc"; VStr "TPXO9_atlas_v3/h_o1_tpxo9_atlas_30_v3.nc"; VStr "TPXO9_atlas_v3/h_p1_tpxo9_atlas_30_v3.nc"; VStr "TPXO9_atlas_v3/h_k1_tpxo9_atlas_30_v3.nc"; VStr "TPXO9_atlas_v3/h_n2_tpxo9_atlas_30_v3.nc"; VStr "TPXO9_atlas_v3/h_m2_tpxo9_atlas_30_v3.nc"; VStr "TPXO9_atlas_v3/h_s2_tpxo9_atlas_30_v3.nc"; VStr "TPXO9_atlas_v3/h_k2_tpxo9_atlas_30_v3.nc"; VStr "TPXO9_atlas_v3/h_m4_tpxo9_atlas_30_v3.nc"; VStr "TPXO9_atlas_v3/h_ms4_tpxo9_atlas_30_v3.nc"; VStr "TPXO9_atlas_v3/h_mn4_tpxo9_atlas_30_v3.nc"; VStr "TPXO9_atlas_v3/h_2n2_tpxo9_atlas_30_v3.nc"; VStr "TPXO9_atlas_v3/h_mf_tpxo9_atlas_30_v3.nc"; VStr "TPXO9_atlas_v3/h_mm_tpxo9_atlas_30_v3.nc"]);
     ("name", VStr "TPXO9-atlas-v3");
     ("projection", VStr "EPSG:4326");
     ("reference", VStr "https://www.tpxo.net/global/tpxo9-atlas");
     ("scale", VNum (1 # 1000));
     ("type", VStr "z");
     ("variable", VStr "tide_ocean");
     ("version", VStr "v3")]);
   ("TPXO9-atlas-v4",
    [("format", VStr "OTIS");
     ("grid_file", VStr "TPXO9_atlas_v4/grid_tpxo9_atlas_30_v4");
     ("model_file", VList [VStr "TPXO9_atlas_v4/h_q1_tpxo9_atlas_30_v4"; VStr "TPXO9_atlas_v4/h_o1_tpxo9_atlas_30_v4"; VStr "TPXO9_atlas_v4/h_p1_tpxo9_atlas_30_v4"; VStr "TPXO9_atlas_v4/h_k1_tpxo9_atlas_30_v4"; VStr "TPXO9_atlas_v4/h_n2_tpxo9_atlas_30_v4"; VStr "TPXO9_atlas_v4/h_m2_tpxo9_atlas_30_v4"; VStr "TPXO9_atlas_v4/h_s2_tpxo9_atlas_30_v4"; VStr "TPXO9_atlas_v4/h_k2_tpxo9_atlas_30_v4"; VStr "TPXO9_atlas_v4/h_m4_tpxo9_atlas_30_v4"; VStr "TPXO9_atlas_v4/h_ms4_tpxo9_atlas_30_v4"; VStr "TPXO9_atlas_v4/h_mn4_tpxo9_atlas_30_v4"; VStr "TPXO9_atlas_v4/h_2n2_tpxo9_atlas_30_v4"; VStr "TPXO9_atlas_v4/h_mf_tpxo9_atlas_30_v4"; VStr "TPXO9_atlas_v4/h_mm_tpxo9_atlas_30_v4"]);
     ("name", VStr "TPXO9-atlas-v4");
     ("projection", VStr "EPSG:4326");
     ("reference", VStr "https://www.tpxo.net/global/tpxo9-atlas");
     ("scale", VNum (1 # 1000));
     ("type", VStr "z");
     ("variable", VStr "tide_ocean");
     ("version", VStr "v4")]);
   ("TPXO9-atlas-v4-nc",
    [("format", VStr "ATLAS-netcdf");
     ("grid_file", VStr "TPXO9_atlas_v4/grid_tpxo9_atlas_30_v4.nc");
     ("model_file", VList [VStr "TPXO9_atlas_v4/h_q1_tpxo9_atlas_30_v4.nc"; VStr "TPXO9_atlas_v4/h_o1_tpxo9_atlas_30_v4.nc"; VStr "TPXO9_atlas_v4/h_p1_tpxo9_atlas_30_v4.nc"; VStr "TPXO9_atlas_v4/h_k1_tpxo9_atlas_30_v4.nc"; VStr "TPXO9_atlas_v4/h_n2_tpxo9_atlas_30_v4.nc"; VStr "TPXO9_atlas_v4/h_m2_tpxo9_atlas_30_v4.nc"; VStr "TPXO9_atlas_v4/h_s2_tpxo9_atlas_30_v4.nc"; VStr "TPXO9_atlas_v4/h_k2_tpxo9_atlas_30_v4.nc"; VStr "TPXO9_atlas_v4/h_m4_tpxo9_atlas_30_v4.nc"; VStr "TPXO9_atlas_v4/h_ms4_tpxo9_atlas_30_v4.nc"; VStr "TPXO9_atlas_v4/h_mn4_tpxo9_atlas_30_v4.nc"; VStr "TPXO9_atlas_v4/h_2n2_tpxo9_atlas_30_v4.nc"; VStr "TPXO9_atlas_v4/h_mf_tpxo9_atlas_30_v4.nc"; VStr "TPXO9_atlas_v4/h_mm_tpxo9_atlas_30_v4.nc"]);
     ("name", VStr "TPXO9-atlas-v4");
     ("projection", VStr "EPSG:4326");
     ("reference", VStr "https://www.tpxo.net/global/tpxo9-atlas");
     ("scale", VNum (1 # 1000));
     ("type", VStr "z");
     ("variable", VStr "tide_ocean");
     ("version", VStr "v4")]);
   ("TPXO9-atlas-v5",
    [("format", VStr "OTIS");
     ("grid_file", VStr "TPXO9_atlas_v5/grid_tpxo9_atlas_30_v5");
     ("model_file", VList [VStr "TPXO9_atlas_v5/h_q1_tpxo9_atlas_30_v5"; VStr "TPXO9_atlas_v5/h_o1_tpxo9_atlas_30_v5"; VStr "TPXO9_atlas_v5/h_p1_tpxo9_atlas_30_v5"; VStr "TPXO9_atlas_v5/h_k1_tpxo9_atlas_30_v5"; VStr "TPXO9_atlas_v5/h_n2_tpxo9_atlas_30_v5"; VStr "TPXO9_atlas_v5/h_m2_tpxo9_atlas_30_v5"; VStr "TPXO9_atlas_v5/h_s1_tpxo9_atlas_30_v5"; VStr "TPXO9_atlas_v5/h_s2_tpxo9_atlas_30_v5"; VStr "TPXO9_atlas_v5/h_k2_tpxo9_atlas_30_v5"; VStr "TPXO9_atlas_v5/h_m4_tpxo9_atlas_30_v5"; VStr "TPXO9_atlas_v5/h_ms4_tpxo9_atlas_30_v5"; VStr "TPXO9_atlas_v5/h_mn4_tpxo9_atlas_30_v5"; VStr "TPXO9_atlas_v5/h_2n2_tpxo9_atlas_30_v5"; VStr "TPXO9_atlas_v5/h_mf_tpxo9_atlas_30_v5"; VStr "TPXO9_atlas_v5/h_mm_tpxo9_atlas_30_v5"]);
     ("name", VStr "TPXO9-atlas-v5");
     ("projection", VStr "EPSG:4326");
     ("reference", VStr "https://www.tpxo.net/global/tpxo9-atlas");
     ("scale", VNum (1 # 1000));
     ("type", VStr "z");
     ("variable", VStr "tide_ocean");
     ("version", VStr "v5")]);
   ("TPXO9-atlas-v5-nc",
    [("format", VStr "ATLAS-netcdf");
     ("grid_file", VStr "TPXO9_atlas_v5/grid_tpxo9_atlas_30_v5.nc");
     ("model_file", VList [VStr "TPXO9_atlas_v5/h_q1_tpxo9_atlas_30_v5.nc"; VStr "TPXO9_atlas_v5/h_o1_tpxo9_atlas_30_v5.nc"; VStr "TPXO9_atlas_v5/h_p1_tpxo9_atlas_30_v5.nc"; VStr "TPXO9_atlas_v5/h_k1_tpxo9_atlas_30_v5.nc"; VStr "TPXO9_atlas_v5/h_n2_tpxo9_atlas_30_v5.nc"; VStr "TPXO9_atlas_v5/h_m2_tpxo9_atlas_30_v5.nc"; VStr "TPXO9_atlas_v5/h_s1_tpxo9_atlas_30_v5.nc"; VStr "TPXO9_atlas_v5/h_s2_tpxo9_atlas_30_v5.nc"; VStr "TPXO9_atlas_v5/h_k2_tpxo9_atlas_30_v5.nc"; VStr "TPXO9_atlas_v5/h_m4_tpxo9_atlas_30_v5.nc"; VStr "TPXO9_atlas_v5/h_ms4_tpxo9_atlas_30_v5.nc"; VStr "TPXO9_atlas_v5/h_mn4_tpxo9_atlas_30_v5.nc"; VStr "TPXO9_atlas_v5/h_2n2_tpxo9_atlas_30_v5.nc"; VStr "TPXO9_atlas_v5/h_mf_tpxo9_atlas_30_v5.nc"; VStr "TPXO9_atlas_v5/h_mm_tpxo9_atlas_30_v5.nc"]);
     ("name", VStr "TPXO9-atlas-v5");
     ("projection", VStr "EPSG:4326");
     ("reference", VStr "https://www.tpxo.net/global/tpxo9-atlas");
     ("scale", VNum (1 # 1000));
     ("type", VStr "z");
     ("variable", VStr "tide_ocean");
     ("version", VStr "v5")]);
   ("TPXO9.1",
    [("format", VStr "OTIS");
     ("grid_file", VStr "TPXO9.1/DATA/grid_tpxo9");
     ("model_file", VStr "TPXO9.1/DATA/h_tpxo9.v1");
     ("name", VStr "TPXO9.1");
     ("projection", VStr "EPSG:4326");
     ("reference", VStr "http://volkov.oce.orst.edu/tides/global.html");
     ("type", VStr "z");
     ("variable", VStr "tide_ocean");
     ("version", VStr "9.1")])
  ].

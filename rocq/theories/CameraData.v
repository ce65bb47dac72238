(** The camera files of data/cameras, in the order in which data/cameras/join.rs
    joins them.  Written by tools/cameras.py. *)
From Coq Require Import String ZArith List.
From Verif Require Import Base Camera.
Import ListNotations.
Local Open Scope Z_scope.
Local Open Scope string_scope.

(** data/cameras/arri/alexa.toml *)
Definition cam_0 : table :=
  [("make", VStr "ARRI"); ("model", VStr "ALEXA"); ("clean_make", VStr "ARRI"); ("clean_model", VStr "ALEXA"); ("blackpoint", VInt 0); ("whitepoint", VInt 4095); ("color_matrix", VArr [VInt 32404542; VInt (-15371385); VInt (-4985314); VInt (-9692660); VInt 18760108; VInt 415560; VInt 556434; VInt (-2040259); VInt 10572252]); ("color_pattern", VStr "RGGB"); ("crops", VArr [VInt 0; VInt 0; VInt 0; VInt 0])].
(** data/cameras/canon/1000d.toml *)
Definition cam_1 : table :=
  [("make", VStr "Canon"); ("model", VStr "Canon EOS 1000D"); ("clean_make", VStr "Canon"); ("clean_model", VStr "EOS 1000D"); ("model_aliases", VArr [VArr [VStr "Canon EOS DIGITAL REBEL XS"; VStr "Rebel XS"]; VArr [VStr "Canon EOS REBEL XS"; VStr "Rebel XS"]; VArr [VStr "Canon EOS Kiss Digital F"; VStr "Kiss F"]; VArr [VStr "Canon EOS Kiss F"; VStr "Kiss F"]]); ("blackpoint", VInt 0); ("whitepoint", VInt 3600); ("color_matrix", VArr [VInt 6771; VInt (-1139); VInt (-977); VInt (-7818); VInt 15123; VInt 2928; VInt (-1244); VInt 1437; VInt 7533]); ("color_pattern", VStr "RGGB"); ("crops", VArr [VInt 18; VInt 0; VInt 2; VInt 42]); ("blackareav", VArr [VInt 0; VInt 41])].
(** data/cameras/canon/100d.toml *)
Definition cam_2 : table :=
  [("make", VStr "Canon"); ("model", VStr "Canon EOS 100D"); ("clean_make", VStr "Canon"); ("clean_model", VStr "EOS 100D"); ("model_aliases", VArr [VArr [VStr "Canon EOS DIGITAL REBEL SL1"; VStr "Rebel SL1"]; VArr [VStr "Canon EOS REBEL SL1"; VStr "Rebel SL1"]; VArr [VStr "Canon EOS Kiss Digital X7"; VStr "Kiss X7"]; VArr [VStr "Canon EOS Kiss X7"; VStr "Kiss X7"]]); ("blackpoint", VInt 2047); ("whitepoint", VInt 12277); ("color_matrix", VArr [VInt 6602; VInt (-841); VInt (-939); VInt (-4472); VInt 12458; VInt 2247; VInt (-975); VInt 2039; VInt 6148]); ("color_pattern", VStr "RGGB"); ("crops", VArr [VInt 52; VInt 0; VInt 0; VInt 72]); ("blackareav", VArr [VInt 0; VInt 72]); ("blackareah", VArr [VInt 8; VInt 44])].
(** data/cameras/canon/10d.toml *)
Definition cam_3 : table :=
  [("make", VStr "Canon"); ("model", VStr "Canon EOS 10D"); ("clean_make", VStr "Canon"); ("clean_model", VStr "EOS 10D"); ("blackpoint", VInt 124); ("whitepoint", VInt 4000); ("color_matrix", VArr [VInt 8197; VInt (-2000); VInt (-1118); VInt (-6714); VInt 14335; VInt 2592; VInt (-2536); VInt 3178; VInt 8266]); ("color_pattern", VStr "RGGB"); ("crops", VArr [VInt 12; VInt 0; VInt 0; VInt 64]); ("wb_offset", VInt 1)].
(** data/cameras/canon/1100d.toml *)
Definition cam_4 : table :=
  [("make", VStr "Canon"); ("model", VStr "Canon EOS 1100D"); ("clean_make", VStr "Canon"); ("clean_model", VStr "EOS 1100D"); ("model_aliases", VArr [VArr [VStr "Canon EOS DIGITAL REBEL T3"; VStr "Rebel T3"]; VArr [VStr "Canon EOS REBEL T3"; VStr "Rebel T3"]; VArr [VStr "Canon EOS Kiss Digital X50"; VStr "Kiss X50"]; VArr [VStr "Canon EOS Kiss X50"; VStr "Kiss X50"]]); ("blackpoint", VInt 2046); ("whitepoint", VInt 15000); ("color_matrix", VArr [VInt 6444; VInt (-904); VInt (-893); VInt (-4563); VInt 12308; VInt 2535; VInt (-903); VInt 2016; VInt 6728]); ("color_pattern", VStr "RGGB"); ("crops", VArr [VInt 20; VInt 0; VInt 0; VInt 64]); ("blackareav", VArr [VInt 0; VInt 58])].
(** data/cameras/canon/1200d.toml *)
Definition cam_5 : table :=
  [("make", VStr "Canon"); ("model", VStr "Canon EOS 1200D"); ("clean_make", VStr "Canon"); ("clean_model", VStr "EOS 1200D"); ("model_aliases", VArr [VArr [VStr "Canon EOS DIGITAL REBEL T5"; VStr "Rebel T5"]; VArr [VStr "Canon EOS REBEL T5"; VStr "Rebel T5"]; VArr [VStr "Canon EOS Kiss Digital X70"; VStr "Kiss X70"]; VArr [VStr "Canon EOS Kiss X70"; VStr "Kiss X70"]]); ("blackpoint", VInt 2046); ("whitepoint", VInt 12279); ("color_matrix", VArr [VInt 6461; VInt (-907); VInt (-882); VInt (-4300); VInt 12184; VInt 2378; VInt (-819); VInt 1944; VInt 5931]); ("color_pattern", VStr "GBRG"); ("crops", VArr [VInt 54; VInt 0; VInt 0; VInt 146]); ("blackareav", VArr [VInt 0; VInt 140]); ("blackareah", VArr [VInt 4; VInt 44])].
(** data/cameras/canon/1300d.toml *)
Definition cam_6 : table :=
  [("make", VStr "Canon"); ("model", VStr "Canon EOS 1300D"); ("clean_make", VStr "Canon"); ("clean_model", VStr "Canon EOS 1300D"); ("model_aliases", VArr [VArr [VStr "Canon EOS DIGITAL REBEL T6"; VStr "Rebel T6"]; VArr [VStr "Canon EOS REBEL T6"; VStr "Rebel T6"]; VArr [VStr "Canon EOS Kiss Digital X80"; VStr "Kiss X80"]; VArr [VStr "Canon EOS Kiss X80"; VStr "Kiss X80"]]); ("blackpoint", VInt 2046); ("whitepoint", VInt 12279); ("color_matrix", VArr [VInt 6939; VInt (-1016); VInt (-866); VInt (-4428); VInt 12473; VInt 2177; VInt (-1175); VInt 2178; VInt 6162]); ("color_pattern", VStr "GRBG"); ("crops", VArr [VInt 50; VInt 0; VInt 0; VInt 142]); ("blackareav", VArr [VInt 0; VInt 140])].
(** data/cameras/canon/1d.toml *)
Definition cam_7 : table :=
  [("make", VStr "Canon"); ("model", VStr "Canon EOS-1D"); ("clean_make", VStr "Canon"); ("clean_model", VStr "EOS-1D"); ("blackpoint", VInt 0); ("whitepoint", VInt 3588); ("color_matrix", VArr [VInt 6806; VInt (-179); VInt (-1020); VInt (-8097); VInt 16415; VInt 1687; VInt (-3267); VInt 4236; VInt 7690]); ("color_pattern", VStr "GRBG"); ("crops", VArr [VInt 0; VInt 0; VInt 0; VInt 0]); ("hints", VArr [VStr "double_line"])].
(** data/cameras/canon/1dm2.toml *)
Definition cam_8 : table :=
  [("make", VStr "Canon"); ("model", VStr "Canon EOS-1D Mark II"); ("clean_make", VStr "Canon"); ("clean_model", VStr "EOS-1D Mark II"); ("blackpoint", VInt 0); ("whitepoint", VInt 3700); ("color_matrix", VArr [VInt 6264; VInt (-582); VInt (-724); VInt (-8312); VInt 15948; VInt 2504; VInt (-1744); VInt 1919; VInt 8664]); ("color_pattern", VStr "RGGB"); ("crops", VArr [VInt 12; VInt 0; VInt 0; VInt 74]); ("blackareav", VArr [VInt 0; VInt 72]); ("wb_offset", VInt 34)].
(** data/cameras/canon/1dm2n.toml *)
Definition cam_9 : table :=
  [("make", VStr "Canon"); ("model", VStr "Canon EOS-1D Mark II N"); ("clean_make", VStr "Canon"); ("clean_model", VStr "EOS-1D Mark II N"); ("blackpoint", VInt 0); ("whitepoint", VInt 3700); ("color_matrix", VArr [VInt 6240; VInt (-466); VInt (-822); VInt (-8180); VInt 15825; VInt 2500; VInt (-1801); VInt 1938; VInt 8042]); ("color_pattern", VStr "RGGB"); ("crops", VArr [VInt 12; VInt 0; VInt 0; VInt 74]); ("blackareav", VArr [VInt 0; VInt 72])].
(** data/cameras/canon/1dm3.toml *)
Definition cam_10 : table :=
  [("make", VStr "Canon"); ("model", VStr "Canon EOS-1D Mark III"); ("clean_make", VStr "Canon"); ("clean_model", VStr "EOS-1D Mark III"); ("blackpoint", VInt 0); ("whitepoint", VInt 15100); ("color_matrix", VArr [VInt 6291; VInt (-540); VInt (-976); VInt (-8350); VInt 16145; VInt 2311; VInt (-1714); VInt 1858; VInt 7326]); ("color_pattern", VStr "RGGB"); ("crops", VArr [VInt 20; VInt 0; VInt 2; VInt 78]); ("blackareav", VArr [VInt 2; VInt 74])].
(** data/cameras/canon/1dm4.toml *)
Definition cam_11 : table :=
  [("make", VStr "Canon"); ("model", VStr "Canon EOS-1D Mark IV"); ("clean_make", VStr "Canon"); ("clean_model", VStr "EOS-1D Mark IV"); ("blackpoint", VInt 2048); ("whitepoint", VInt 15100); ("color_matrix", VArr [VInt 6014; VInt (-220); VInt (-795); VInt (-4109); VInt 12014; VInt 2361; VInt (-561); VInt 1824; VInt 5787]); ("color_pattern", VStr "GBRG"); ("crops", VArr [VInt 46; VInt 64; VInt 2; VInt 144]); ("blackareav", VArr [VInt 0; VInt 140])].
(** data/cameras/canon/1ds.toml *)
Definition cam_12 : table :=
  [("make", VStr "Canon"); ("model", VStr "Canon EOS-1DS"); ("clean_make", VStr "Canon"); ("clean_model", VStr "EOS-1Ds"); ("blackpoint", VInt 0); ("whitepoint", VInt 3500); ("color_matrix", VArr [VInt 4374; VInt 3631; VInt (-1743); VInt (-7520); VInt 15212; VInt 2472; VInt (-2892); VInt 3632; VInt 8161]); ("color_pattern", VStr "GRBG"); ("crops", VArr [VInt 0; VInt 0; VInt 0; VInt 0]); ("hints", VArr [VStr "double_line"])].
(** data/cameras/canon/1dsm2.toml *)
Definition cam_13 : table :=
  [("make", VStr "Canon"); ("model", VStr "Canon EOS-1Ds Mark II"); ("clean_make", VStr "Canon"); ("clean_model", VStr "EOS-1Ds Mark II"); ("blackpoint", VInt 0); ("whitepoint", VInt 4060); ("color_matrix", VArr [VInt 6517; VInt (-602); VInt (-867); VInt (-8180); VInt 15926; VInt 2378; VInt (-1618); VInt 1771; VInt 7633]); ("color_pattern", VStr "GBRG"); ("crops", VArr [VInt 13; VInt 0; VInt 0; VInt 98]); ("blackareav", VArr [VInt 0; VInt 96]); ("wb_offset", VInt 34)].
(** data/cameras/canon/1dsm3.toml *)
Definition cam_14 : table :=
  [("make", VStr "Canon"); ("model", VStr "Canon EOS-1Ds Mark III"); ("clean_make", VStr "Canon"); ("clean_model", VStr "EOS-1Ds Mark III"); ("blackpoint", VInt 0); ("whitepoint", VInt 15100); ("color_matrix", VArr [VInt 5859; VInt (-211); VInt (-930); VInt (-8255); VInt 16017; VInt 2353; VInt (-1732); VInt 1887; VInt 7448]); ("color_pattern", VStr "RGGB"); ("crops", VArr [VInt 20; VInt 10; VInt 2; VInt 62]); ("blackareav", VArr [VInt 0; VInt 60])].
(** data/cameras/canon/1dx.toml *)
Definition cam_15 : table :=
  [("make", VStr "Canon"); ("model", VStr "Canon EOS-1D X"); ("clean_make", VStr "Canon"); ("clean_model", VStr "EOS-1D X"); ("blackpoint", VInt 0); ("whitepoint", VInt 13000); ("color_matrix", VArr [VInt 6847; VInt (-614); VInt (-1014); VInt (-4669); VInt 12737; VInt 2139; VInt (-1197); VInt 2488; VInt 6846]); ("color_pattern", VStr "RGGB"); ("crops", VArr [VInt 102; VInt 0; VInt 2; VInt 128]); ("blackareav", VArr [VInt 0; VInt 120]); ("blackareah", VArr [VInt 0; VInt 98])].
(** data/cameras/canon/1dx_m2.toml *)
Definition cam_16 : table :=
  [("make", VStr "Canon"); ("model", VStr "Canon EOS-1D X Mark II"); ("clean_make", VStr "Canon"); ("clean_model", VStr "Canon EOS-1D X Mark II"); ("blackpoint", VInt 2048); ("whitepoint", VInt 14888); ("color_matrix", VArr [VInt 7596; VInt (-978); VInt (-967); VInt (-4808); VInt 12571; VInt 2503; VInt (-1398); VInt 2567; VInt 5752]); ("color_pattern", VStr "RGGB"); ("crops", VArr [VInt 0; VInt 0; VInt 0; VInt 0])].
(** data/cameras/canon/20d.toml *)
Definition cam_17 : table :=
  [("make", VStr "Canon"); ("model", VStr "Canon EOS 20D"); ("clean_make", VStr "Canon"); ("clean_model", VStr "EOS 20D"); ("blackpoint", VInt 0); ("whitepoint", VInt 4095); ("color_matrix", VArr [VInt 6599; VInt (-537); VInt (-891); VInt (-8071); VInt 15783; VInt 2424; VInt (-1983); VInt 2234; VInt 7462]); ("color_pattern", VStr "RGGB"); ("crops", VArr [VInt 12; VInt 0; VInt 0; VInt 74]); ("blackareav", VArr [VInt 0; VInt 72]); ("wb_offset", VInt 25)].
(** data/cameras/canon/300d.toml *)
Definition cam_18 : table :=
  [("make", VStr "Canon"); ("model", VStr "Canon EOS 300D DIGITAL"); ("clean_make", VStr "Canon"); ("clean_model", VStr "EOS 300D"); ("model_aliases", VArr [VArr [VStr "Canon EOS 350D Digital"; VStr "EOS 350D"]; VArr [VStr "Canon EOS DIGITAL REBEL"; VStr "Rebel"]; VArr [VStr "Canon EOS REBEL"; VStr "Rebel"]; VArr [VStr "Canon EOS Kiss Digital"; VStr "Kiss"]; VArr [VStr "Canon EOS Kiss"; VStr "Kiss"]]); ("blackpoint", VInt 124); ("whitepoint", VInt 4000); ("color_matrix", VArr [VInt 8197; VInt (-2000); VInt (-1118); VInt (-6714); VInt 14335; VInt 2592; VInt (-2536); VInt 3178; VInt 8266]); ("color_pattern", VStr "RGGB"); ("crops", VArr [VInt 12; VInt 0; VInt 0; VInt 64]); ("wb_offset", VInt 13); ("blackareav", VArr [VInt 0; VInt 60])].
(** data/cameras/canon/30d.toml *)
Definition cam_19 : table :=
  [("make", VStr "Canon"); ("model", VStr "Canon EOS 30D"); ("clean_make", VStr "Canon"); ("clean_model", VStr "EOS 30D"); ("blackpoint", VInt 0); ("whitepoint", VInt 4071); ("color_matrix", VArr [VInt 6257; VInt (-303); VInt (-1000); VInt (-7880); VInt 15621; VInt 2396; VInt (-1714); VInt 1904; VInt 7046]); ("color_pattern", VStr "RGGB"); ("crops", VArr [VInt 12; VInt 0; VInt 0; VInt 74]); ("blackareav", VArr [VInt 0; VInt 72])].
(** data/cameras/canon/350d.toml *)
Definition cam_20 : table :=
  [("make", VStr "Canon"); ("model", VStr "Canon EOS 350D DIGITAL"); ("clean_make", VStr "Canon"); ("clean_model", VStr "EOS 350D"); ("model_aliases", VArr [VArr [VStr "Canon EOS 350D Digital"; VStr "EOS 350D"]; VArr [VStr "Canon EOS DIGITAL REBEL XT"; VStr "Rebel XT"]; VArr [VStr "Canon EOS REBEL XT"; VStr "Rebel XT"]; VArr [VStr "Canon EOS Kiss Digital N"; VStr "Kiss N"]; VArr [VStr "Canon EOS Kiss N"; VStr "Kiss N"]]); ("blackpoint", VInt 0); ("whitepoint", VInt 4095); ("color_matrix", VArr [VInt 6018; VInt (-617); VInt (-965); VInt (-8645); VInt 15881; VInt 2975; VInt (-1530); VInt 1719; VInt 7642]); ("color_pattern", VStr "RGGB"); ("crops", VArr [VInt 14; VInt 0; VInt 0; VInt 42]); ("blackareav", VArr [VInt 0; VInt 40]); ("wb_offset", VInt 25)].
(** data/cameras/canon/400d.toml *)
Definition cam_21 : table :=
  [("make", VStr "Canon"); ("model", VStr "Canon EOS 400D DIGITAL"); ("clean_make", VStr "Canon"); ("clean_model", VStr "EOS 400D"); ("model_aliases", VArr [VArr [VStr "Canon EOS DIGITAL REBEL XTi"; VStr "Rebel XTi"]; VArr [VStr "Canon EOS REBEL XTi"; VStr "Rebel XTi"]; VArr [VStr "Canon EOS Kiss Digital X"; VStr "Kiss X"]; VArr [VStr "Canon EOS Kiss X"; VStr "Kiss X"]]); ("blackpoint", VInt 0); ("whitepoint", VInt 4058); ("color_matrix", VArr [VInt 7054; VInt (-1501); VInt (-990); VInt (-8156); VInt 15544; VInt 2812; VInt (-1278); VInt 1414; VInt 7796]); ("color_pattern", VStr "RGGB"); ("crops", VArr [VInt 18; VInt 0; VInt 2; VInt 42]); ("blackareav", VArr [VInt 0; VInt 40])].
(** data/cameras/canon/40d.toml *)
Definition cam_22 : table :=
  [("make", VStr "Canon"); ("model", VStr "Canon EOS 40D"); ("clean_make", VStr "Canon"); ("clean_model", VStr "EOS 40D"); ("blackpoint", VInt 1021); ("whitepoint", VInt 13600); ("color_matrix", VArr [VInt 6071; VInt (-747); VInt (-856); VInt (-7653); VInt 15365; VInt 2441; VInt (-2025); VInt 2553; VInt 7315]); ("color_pattern", VStr "RGGB"); ("crops", VArr [VInt 18; VInt 6; VInt 2; VInt 30]); ("blackareav", VArr [VInt 0; VInt 28]); ("hints", VArr [VStr "40d_yuv"])].
(** data/cameras/canon/450d.toml *)
Definition cam_23 : table :=
  [("make", VStr "Canon"); ("model", VStr "Canon EOS 450D"); ("clean_make", VStr "Canon"); ("clean_model", VStr "EOS 450D"); ("model_aliases", VArr [VArr [VStr "Canon EOS DIGITAL REBEL XSi"; VStr "Rebel XSi"]; VArr [VStr "Canon EOS REBEL XSi"; VStr "Rebel XSi"]; VArr [VStr "Canon EOS Kiss Digital X2"; VStr "Kiss X2"]; VArr [VStr "Canon EOS Kiss X2"; VStr "Kiss X2"]]); ("blackpoint", VInt 1020); ("whitepoint", VInt 14500); ("color_matrix", VArr [VInt 5784; VInt (-262); VInt (-821); VInt (-7539); VInt 15064; VInt 2672; VInt (-1982); VInt 2681; VInt 7427]); ("color_pattern", VStr "RGGB"); ("crops", VArr [VInt 18; VInt 0; VInt 2; VInt 22])].
(** data/cameras/canon/500d.toml *)
Definition cam_24 : table :=
  [("make", VStr "Canon"); ("model", VStr "Canon EOS 500D"); ("clean_make", VStr "Canon"); ("clean_model", VStr "EOS 500D"); ("model_aliases", VArr [VArr [VStr "Canon EOS DIGITAL REBEL T1i"; VStr "Rebel T1i"]; VArr [VStr "Canon EOS REBEL T1i"; VStr "Rebel T1i"]; VArr [VStr "Canon EOS Kiss Digital X3"; VStr "Kiss X3"]; VArr [VStr "Canon EOS Kiss X3"; VStr "Kiss X3"]]); ("blackpoint", VInt 1024); ("whitepoint", VInt 15600); ("color_matrix", VArr [VInt 4763; VInt 712; VInt (-646); VInt (-6821); VInt 14399; VInt 2640; VInt (-1921); VInt 3276; VInt 6561]); ("color_pattern", VStr "RGGB"); ("crops", VArr [VInt 30; VInt 48; VInt 32; VInt 62])].
(** data/cameras/canon/50d.toml *)
Definition cam_25 : table :=
  [("make", VStr "Canon"); ("model", VStr "Canon EOS 50D"); ("clean_make", VStr "Canon"); ("clean_model", VStr "EOS 50D"); ("blackpoint", VInt 1026); ("whitepoint", VInt 15500); ("color_matrix", VArr [VInt 4920; VInt 616; VInt (-593); VInt (-6493); VInt 13964; VInt 2784; VInt (-1774); VInt 3178; VInt 7005]); ("color_pattern", VStr "GBRG"); ("crops", VArr [VInt 52; VInt 16; VInt 18; VInt 64]); ("blackareav", VArr [VInt 0; VInt 60]); ("blackareah", VArr [VInt 2; VInt 46])].
(** data/cameras/canon/550d.toml *)
Definition cam_26 : table :=
  [("make", VStr "Canon"); ("model", VStr "Canon EOS 550D"); ("clean_make", VStr "Canon"); ("clean_model", VStr "EOS 550D"); ("model_aliases", VArr [VArr [VStr "Canon EOS DIGITAL REBEL T2i"; VStr "Rebel T2i"]; VArr [VStr "Canon EOS REBEL T2i"; VStr "Rebel T2i"]; VArr [VStr "Canon EOS Kiss Digital X4"; VStr "Kiss X4"]; VArr [VStr "Canon EOS Kiss X4"; VStr "Kiss X4"]]); ("blackpoint", VInt 2048); ("whitepoint", VInt 15831); ("color_matrix", VArr [VInt 6941; VInt (-1164); VInt (-857); VInt (-3825); VInt 11597; VInt 2534; VInt (-416); VInt 1540; VInt 6039]); ("color_pattern", VStr "GBRG"); ("crops", VArr [VInt 54; VInt 0; VInt 0; VInt 148]); ("blackareav", VArr [VInt 0; VInt 140]); ("blackareah", VArr [VInt 4; VInt 44])].
(** data/cameras/canon/5d.toml *)
Definition cam_27 : table :=
  [("make", VStr "Canon"); ("model", VStr "Canon EOS 5D"); ("clean_make", VStr "Canon"); ("clean_model", VStr "EOS 5D"); ("blackpoint", VInt 0); ("whitepoint", VInt 3650); ("color_matrix", VArr [VInt 6347; VInt (-479); VInt (-972); VInt (-8297); VInt 15954; VInt 2480; VInt (-1968); VInt 2131; VInt 7649]); ("color_pattern", VStr "RGGB"); ("crops", VArr [VInt 34; VInt 0; VInt 0; VInt 90]); ("blackareav", VArr [VInt 0; VInt 88]); ("blackareah", VArr [VInt 2; VInt 30])].
(** data/cameras/canon/5dm2.toml *)
Definition cam_28 : table :=
  [("make", VStr "Canon"); ("model", VStr "Canon EOS 5D Mark II"); ("clean_make", VStr "Canon"); ("clean_model", VStr "EOS 5D Mark II"); ("blackpoint", VInt 1020); ("whitepoint", VInt 15600); ("color_matrix", VArr [VInt 4716; VInt 603; VInt (-830); VInt (-7798); VInt 15474; VInt 2480; VInt (-1496); VInt 1937; VInt 6651]); ("color_pattern", VStr "GBRG"); ("crops", VArr [VInt 51; VInt 0; VInt 0; VInt 158]); ("blackareav", VArr [VInt 0; VInt 156]); ("blackareah", VArr [VInt 2; VInt 48])].
(** data/cameras/canon/5dm3.toml *)
Definition cam_29 : table :=
  [("make", VStr "Canon"); ("model", VStr "Canon EOS 5D Mark III"); ("clean_make", VStr "Canon"); ("clean_model", VStr "EOS 5D Mark III"); ("blackpoint", VInt 2036); ("whitepoint", VInt 15000); ("color_matrix", VArr [VInt 6722; VInt (-635); VInt (-963); VInt (-4287); VInt 12460; VInt 2028; VInt (-908); VInt 2162; VInt 5668]); ("color_pattern", VStr "RGGB"); ("crops", VArr [VInt 82; VInt 2; VInt 0; VInt 124]); ("blackareav", VArr [VInt 0; VInt 120]); ("blackareah", VArr [VInt 2; VInt 78])].
(** data/cameras/canon/5dm4.toml *)
Definition cam_30 : table :=
  [("make", VStr "Canon"); ("model", VStr "Canon EOS 5D Mark IV"); ("clean_make", VStr "Canon"); ("clean_model", VStr "Canon EOS 5D Mark IV"); ("blackpoint", VInt 0); ("whitepoint", VInt 14008); ("color_matrix", VArr [VInt 6446; VInt (-366); VInt (-864); VInt (-4436); VInt 12204; VInt 2513; VInt (-952); VInt 2496; VInt 6348]); ("color_pattern", VStr "RGGB"); ("crops", VArr [VInt 42; VInt 0; VInt 0; VInt 136]); ("hints", VArr [VStr "double_line"]); ("blackareav", VArr [VInt 0; VInt 130])].
(** data/cameras/canon/5ds.toml *)
Definition cam_31 : table :=
  [("make", VStr "Canon"); ("model", VStr "Canon EOS 5DS"); ("clean_make", VStr "Canon"); ("clean_model", VStr "EOS 5DS"); ("blackpoint", VInt 2047); ("whitepoint", VInt 14466); ("color_matrix", VArr [VInt 6250; VInt (-711); VInt (-808); VInt (-5153); VInt 12794; VInt 2636; VInt (-1249); VInt 2198; VInt 5610]); ("color_pattern", VStr "RGGB"); ("crops", VArr [VInt 64; VInt 2; VInt 0; VInt 160]); ("blackareav", VArr [VInt 0; VInt 150]); ("blackareah", VArr [VInt 2; VInt 60]); ("hints", VArr [VStr "double_line"])].
(** data/cameras/canon/5dsr.toml *)
Definition cam_32 : table :=
  [("make", VStr "Canon"); ("model", VStr "Canon EOS 5DS R"); ("clean_make", VStr "Canon"); ("clean_model", VStr "EOS 5DS R"); ("blackpoint", VInt 2048); ("whitepoint", VInt 15181); ("color_matrix", VArr [VInt 6250; VInt (-711); VInt (-808); VInt (-5153); VInt 12794; VInt 2636; VInt (-1249); VInt 2198; VInt 5610]); ("color_pattern", VStr "RGGB"); ("crops", VArr [VInt 64; VInt 2; VInt 0; VInt 160]); ("blackareav", VArr [VInt 0; VInt 150]); ("blackareah", VArr [VInt 2; VInt 60]); ("hints", VArr [VStr "double_line"])].
(** data/cameras/canon/600d.toml *)
Definition cam_33 : table :=
  [("make", VStr "Canon"); ("model", VStr "Canon EOS 600D"); ("clean_make", VStr "Canon"); ("clean_model", VStr "EOS 600D"); ("model_aliases", VArr [VArr [VStr "Canon EOS DIGITAL REBEL T3i"; VStr "Rebel T3i"]; VArr [VStr "Canon EOS REBEL T3i"; VStr "Rebel T3i"]; VArr [VStr "Canon EOS Kiss Digital X5"; VStr "Kiss X5"]; VArr [VStr "Canon EOS Kiss X5"; VStr "Kiss X5"]]); ("blackpoint", VInt 2048); ("whitepoint", VInt 13926); ("color_matrix", VArr [VInt 6461; VInt (-907); VInt (-882); VInt (-4300); VInt 12184; VInt 2378; VInt (-819); VInt 1944; VInt 5931]); ("color_pattern", VStr "GBRG"); ("crops", VArr [VInt 54; VInt 0; VInt 0; VInt 146]); ("blackareav", VArr [VInt 0; VInt 140]); ("blackareah", VArr [VInt 4; VInt 44])].
(** data/cameras/canon/60d.toml *)
Definition cam_34 : table :=
  [("make", VStr "Canon"); ("model", VStr "Canon EOS 60D"); ("clean_make", VStr "Canon"); ("clean_model", VStr "EOS 60D"); ("blackpoint", VInt 2048); ("whitepoint", VInt 15000); ("color_matrix", VArr [VInt 6719; VInt (-994); VInt (-925); VInt (-4408); VInt 12426; VInt 2211; VInt (-887); VInt 2129; VInt 6051]); ("color_pattern", VStr "GBRG"); ("crops", VArr [VInt 54; VInt 0; VInt 0; VInt 146]); ("blackareav", VArr [VInt 0; VInt 140]); ("blackareah", VArr [VInt 4; VInt 46])].
(** data/cameras/canon/650d.toml *)
Definition cam_35 : table :=
  [("make", VStr "Canon"); ("model", VStr "Canon EOS 650D"); ("clean_make", VStr "Canon"); ("clean_model", VStr "EOS 650D"); ("model_aliases", VArr [VArr [VStr "Canon EOS DIGITAL REBEL T4i"; VStr "Rebel T4i"]; VArr [VStr "Canon EOS REBEL T4i"; VStr "Rebel T4i"]; VArr [VStr "Canon EOS Kiss Digital X6i"; VStr "Kiss X6i"]; VArr [VStr "Canon EOS Kiss X6i"; VStr "Kiss X6i"]]); ("blackpoint", VInt 2047); ("whitepoint", VInt 12277); ("color_matrix", VArr [VInt 6602; VInt (-841); VInt (-939); VInt (-4472); VInt 12458; VInt 2247; VInt (-975); VInt 2039; VInt 6148]); ("color_pattern", VStr "RGGB"); ("crops", VArr [VInt 56; VInt 0; VInt 0; VInt 76]); ("blackareav", VArr [VInt 0; VInt 70]); ("blackareah", VArr [VInt 4; VInt 44])].
(** data/cameras/canon/6d.toml *)
Definition cam_36 : table :=
  [("make", VStr "Canon"); ("model", VStr "Canon EOS 6D"); ("clean_make", VStr "Canon"); ("clean_model", VStr "EOS 6D"); ("blackpoint", VInt 2047); ("whitepoint", VInt 15000); ("color_matrix", VArr [VInt 7034; VInt (-804); VInt (-1014); VInt (-4420); VInt 12564; VInt 2058; VInt (-851); VInt 1994; VInt 5758]); ("color_pattern", VStr "RGGB"); ("crops", VArr [VInt 40; VInt 0; VInt 2; VInt 74]); ("blackareav", VArr [VInt 0; VInt 68]); ("blackareah", VArr [VInt 2; VInt 36])].
(** data/cameras/canon/700d.toml *)
Definition cam_37 : table :=
  [("make", VStr "Canon"); ("model", VStr "Canon EOS 700D"); ("clean_make", VStr "Canon"); ("clean_model", VStr "EOS 700D"); ("model_aliases", VArr [VArr [VStr "Canon EOS DIGITAL REBEL T5i"; VStr "Rebel T5i"]; VArr [VStr "Canon EOS REBEL T5i"; VStr "Rebel T5i"]; VArr [VStr "Canon EOS Kiss Digital X7i"; VStr "Kiss X7i"]; VArr [VStr "Canon EOS Kiss X7i"; VStr "Kiss X7i"]]); ("blackpoint", VInt 2048); ("whitepoint", VInt 15000); ("color_matrix", VArr [VInt 6602; VInt (-841); VInt (-939); VInt (-4472); VInt 12458; VInt 2247; VInt (-975); VInt 2039; VInt 6148]); ("color_pattern", VStr "RGGB"); ("crops", VArr [VInt 52; VInt 0; VInt 0; VInt 72]); ("blackareav", VArr [VInt 0; VInt 70]); ("blackareah", VArr [VInt 4; VInt 50])].
(** data/cameras/canon/70d.toml *)
Definition cam_38 : table :=
  [("make", VStr "Canon"); ("model", VStr "Canon EOS 70D"); ("clean_make", VStr "Canon"); ("clean_model", VStr "EOS 70D"); ("blackpoint", VInt 2049); ("whitepoint", VInt 12277); ("color_matrix", VArr [VInt 7034; VInt (-804); VInt (-1014); VInt (-4420); VInt 12564; VInt 2058; VInt (-851); VInt 1994; VInt 5758]); ("color_pattern", VStr "RGGB"); ("crops", VArr [VInt 38; VInt 0; VInt 0; VInt 72]); ("blackareav", VArr [VInt 0; VInt 72]); ("blackareah", VArr [VInt 0; VInt 38])].
(** data/cameras/canon/750d.toml *)
Definition cam_39 : table :=
  [("make", VStr "Canon"); ("model", VStr "Canon EOS 750D"); ("clean_make", VStr "Canon"); ("clean_model", VStr "EOS 750D"); ("model_aliases", VArr [VArr [VStr "Canon EOS DIGITAL REBEL T6i"; VStr "Rebel T6i"]; VArr [VStr "Canon EOS REBEL T6i"; VStr "Rebel T6i"]; VArr [VStr "Canon EOS Kiss Digital X8i"; VStr "Kiss X8i"]; VArr [VStr "Canon EOS Kiss X8i"; VStr "Kiss X8i"]]); ("blackpoint", VInt 2047); ("whitepoint", VInt 11765); ("color_matrix", VArr [VInt 6362; VInt (-823); VInt (-847); VInt (-4426); VInt 12109; VInt 2616; VInt (-743); VInt 1857; VInt 5635]); ("color_pattern", VStr "RGGB"); ("crops", VArr [VInt 34; VInt 0; VInt 0; VInt 72])].
(** data/cameras/canon/760d.toml *)
Definition cam_40 : table :=
  [("make", VStr "Canon"); ("model", VStr "Canon EOS 760D"); ("clean_make", VStr "Canon"); ("clean_model", VStr "EOS 760D"); ("model_aliases", VArr [VArr [VStr "Canon EOS DIGITAL REBEL T6s"; VStr "Rebel T6s"]; VArr [VStr "Canon EOS REBEL T6s"; VStr "Rebel T6s"]; VArr [VStr "Canon EOS 8000D"; VStr "EOS 8000D"]]); ("blackpoint", VInt 2047); ("whitepoint", VInt 11765); ("color_matrix", VArr [VInt 6362; VInt (-823); VInt (-847); VInt (-4426); VInt 12109; VInt 2616; VInt (-743); VInt 1857; VInt 5635]); ("color_pattern", VStr "RGGB"); ("crops", VArr [VInt 34; VInt 0; VInt 0; VInt 72])].
(** data/cameras/canon/77d.toml *)
Definition cam_41 : table :=
  [("make", VStr "Canon"); ("model", VStr "Canon EOS 77D"); ("clean_make", VStr "Canon"); ("clean_model", VStr "Canon EOS 77D"); ("blackpoint", VInt 2048); ("whitepoint", VInt 14338); ("color_matrix", VArr [VInt 7377; VInt (-742); VInt (-998); VInt (-4235); VInt 11981; VInt 2549; VInt (-673); VInt 1918; VInt 5538]); ("color_pattern", VStr "RGGB"); ("crops", VArr [VInt 36; VInt 0; VInt 0; VInt 264]); ("blackareav", VArr [VInt 0; VInt 260]); ("blackareah", VArr [VInt 0; VInt 30])].
(** data/cameras/canon/7d.toml *)
Definition cam_42 : table :=
  [("make", VStr "Canon"); ("model", VStr "Canon EOS 7D"); ("clean_make", VStr "Canon"); ("clean_model", VStr "EOS 7D"); ("blackpoint", VInt 2048); ("whitepoint", VInt 13600); ("color_matrix", VArr [VInt 6844; VInt (-996); VInt (-856); VInt (-3876); VInt 11761; VInt 2396; VInt (-593); VInt 1772; VInt 6198]); ("color_pattern", VStr "GBRG"); ("crops", VArr [VInt 52; VInt 0; VInt 0; VInt 158]); ("blackareav", VArr [VInt 8; VInt 156])].
(** data/cameras/canon/7dmk2.toml *)
Definition cam_43 : table :=
  [("make", VStr "Canon"); ("model", VStr "Canon EOS 7D Mark II"); ("clean_make", VStr "Canon"); ("clean_model", VStr "EOS 7D Mark II"); ("blackpoint", VInt 0); ("whitepoint", VInt 10400); ("color_matrix", VArr [VInt 7268; VInt (-1082); VInt (-969); VInt (-4186); VInt 11839; VInt 2663; VInt (-825); VInt 2029; VInt 5839]); ("color_pattern", VStr "RGGB"); ("crops", VArr [VInt 38; VInt 0; VInt 0; VInt 72]); ("blackareav", VArr [VInt 4; VInt 64])].
(** data/cameras/canon/80d.toml *)
Definition cam_44 : table :=
  [("make", VStr "Canon"); ("model", VStr "Canon EOS 80D"); ("clean_make", VStr "Canon"); ("clean_model", VStr "Canon EOS 80D"); ("blackpoint", VInt 0); ("whitepoint", VInt 11892); ("color_matrix", VArr [VInt 7457; VInt (-671); VInt (-937); VInt (-4849); VInt 12495; VInt 2643; VInt (-1213); VInt 2354; VInt 5492]); ("color_pattern", VStr "RGGB"); ("crops", VArr [VInt 34; VInt 0; VInt 0; VInt 264]); ("blackareav", VArr [VInt 0; VInt 260]); ("blackareah", VArr [VInt 0; VInt 30])].
(** data/cameras/canon/a3300is.toml *)
Definition cam_45 : table :=
  [("make", VStr "Canon"); ("model", VStr "PowerShot A3300 IS"); ("clean_make", VStr "Canon"); ("clean_model", VStr "PowerShot A3300 IS"); ("blackpoint", VInt 127); ("whitepoint", VInt 4095); ("color_matrix", VArr [VInt 1301431; VInt (-469837); VInt (-102652); VInt (-200195); VInt 961551; VInt 238645; VInt (-16441); VInt 142319; VInt 375979]); ("color_pattern", VStr "GBRG"); ("crops", VArr [VInt 16; VInt 56; VInt 8; VInt 16]); ("filesize", VInt 24724224); ("raw_width", VInt 4704); ("raw_height", VInt 3504)].
(** data/cameras/canon/a610.toml *)
Definition cam_46 : table :=
  [("make", VStr "Canon"); ("model", VStr "PowerShot A610"); ("clean_make", VStr "Canon"); ("clean_model", VStr "PowerShot A610"); ("blackpoint", VInt 0); ("whitepoint", VInt 1023); ("color_matrix", VArr [VInt 15591; VInt (-6402); VInt (-1592); VInt (-5365); VInt 13198; VInt 2168; VInt (-1300); VInt 1824; VInt 5075]); ("color_pattern", VStr "RGGB"); ("crops", VArr [VInt 8; VInt 44; VInt 0; VInt 12]); ("filesize", VInt 6573120); ("raw_width", VInt 2672); ("raw_height", VInt 1968); ("blackareav", VArr [VInt 2632; VInt 40])].
(** data/cameras/canon/a620.toml *)
Definition cam_47 : table :=
  [("make", VStr "Canon"); ("model", VStr "PowerShot A620"); ("clean_make", VStr "Canon"); ("clean_model", VStr "PowerShot A620"); ("blackpoint", VInt 0); ("whitepoint", VInt 1023); ("color_matrix", VArr [VInt 15265; VInt (-6193); VInt (-1558); VInt (-4125); VInt 12116; VInt 2010; VInt (-888); VInt 1639; VInt 5220]); ("color_pattern", VStr "RGGB"); ("crops", VArr [VInt 12; VInt 4; VInt 0; VInt 36]); ("filesize", VInt 9219600); ("raw_width", VInt 3152); ("raw_height", VInt 2340); ("blackareav", VArr [VInt 0; VInt 30])].
(** data/cameras/canon/a630.toml *)
Definition cam_48 : table :=
  [("make", VStr "Canon"); ("model", VStr "PowerShot A630"); ("clean_make", VStr "Canon"); ("clean_model", VStr "PowerShot A630"); ("blackpoint", VInt 0); ("whitepoint", VInt 1023); ("color_matrix", VArr [VInt 14201; VInt (-5308); VInt (-1757); VInt (-6087); VInt 14472; VInt 1617; VInt (-2191); VInt 3105; VInt 5348]); ("color_pattern", VStr "RGGB"); ("crops", VArr [VInt 6; VInt 44; VInt 6; VInt 12]); ("filesize", VInt 10383120); ("raw_width", VInt 3344); ("raw_height", VInt 2484); ("blackareav", VArr [VInt 0; VInt 30])].
(** data/cameras/canon/a640.toml *)
Definition cam_49 : table :=
  [("make", VStr "Canon"); ("model", VStr "PowerShot A640"); ("clean_make", VStr "Canon"); ("clean_model", VStr "PowerShot A640"); ("blackpoint", VInt 0); ("whitepoint", VInt 1023); ("color_matrix", VArr [VInt 13124; VInt (-5329); VInt (-1390); VInt (-3602); VInt 11658; VInt 1944; VInt (-1612); VInt 2863; VInt 4885]); ("color_pattern", VStr "RGGB"); ("crops", VArr [VInt 6; VInt 52; VInt 6; VInt 12]); ("filesize", VInt 12945240); ("raw_width", VInt 3736); ("raw_height", VInt 2772); ("blackareav", VArr [VInt 3686; VInt 50])].
(** data/cameras/canon/a650.toml *)
Definition cam_50 : table :=
  [("make", VStr "Canon"); ("model", VStr "PowerShot A650"); ("clean_make", VStr "Canon"); ("clean_model", VStr "PowerShot A650"); ("blackpoint", VInt 0); ("whitepoint", VInt 1023); ("color_matrix", VArr [VInt 9427; VInt (-3036); VInt (-959); VInt (-2581); VInt 10671; VInt 1911; VInt (-1039); VInt 1982; VInt 4430]); ("color_pattern", VStr "RGGB"); ("crops", VArr [VInt 12; VInt 24; VInt 12; VInt 48]); ("filesize", VInt 15636240); ("raw_width", VInt 4104); ("raw_height", VInt 3048); ("blackareav", VArr [VInt 0; VInt 45])].
(** data/cameras/canon/a720is.toml *)
Definition cam_51 : table :=
  [("make", VStr "Canon"); ("model", VStr "PowerShot A720 IS"); ("clean_make", VStr "Canon"); ("clean_model", VStr "PowerShot A720 IS"); ("blackpoint", VInt 0); ("whitepoint", VInt 1023); ("color_matrix", VArr [VInt 14573; VInt (-5482); VInt (-1546); VInt (-1266); VInt 9799; VInt 1468; VInt (-1040); VInt 1912; VInt 3810]); ("color_pattern", VStr "GBRG"); ("crops", VArr [VInt 5; VInt 32; VInt 3; VInt 6]); ("filesize", VInt 10341600); ("raw_width", VInt 3336); ("raw_height", VInt 2480); ("blackareav", VArr [VInt 3306; VInt 30])].
(** data/cameras/canon/d10.toml *)
Definition cam_52 : table :=
  [("make", VStr "Canon"); ("model", VStr "Canon PowerShot D10"); ("clean_make", VStr "Canon"); ("clean_model", VStr "PowerShot D10"); ("blackpoint", VInt 0); ("whitepoint", VInt 4095); ("color_matrix", VArr [VInt 9427; VInt (-3036); VInt (-959); VInt (-2581); VInt 10671; VInt 1911; VInt (-1039); VInt 1982; VInt 4430]); ("color_pattern", VStr "GBRG"); ("crops", VArr [VInt 22; VInt 80; VInt 8; VInt 25]); ("filesize", VInt 18763488); ("raw_width", VInt 4104); ("raw_height", VInt 3048); ("blackareav", VArr [VInt 4074; VInt 30])].
(** data/cameras/canon/d2000.toml *)
Definition cam_53 : table :=
  [("make", VStr "Canon"); ("model", VStr "EOS D2000C"); ("clean_make", VStr "Canon"); ("clean_model", VStr "EOS D2000C"); ("blackpoint", VInt 0); ("whitepoint", VInt 4095); ("color_matrix", VArr [VInt 24542; VInt (-10860); VInt (-3401); VInt (-1490); VInt 11370; VInt (-297); VInt 2858; VInt (-605); VInt 3225]); ("color_pattern", VStr "GRBG"); ("crops", VArr [VInt 0; VInt 0; VInt 0; VInt 0]); ("hints", VArr [VStr "linearization"])].
(** data/cameras/canon/d30.toml *)
Definition cam_54 : table :=
  [("make", VStr "Canon"); ("model", VStr "Canon EOS D30"); ("clean_make", VStr "Canon"); ("clean_model", VStr "EOS D30"); ("blackpoint", VInt 126); ("whitepoint", VInt 4095); ("color_matrix", VArr [VInt 9805; VInt (-2689); VInt (-1312); VInt (-5803); VInt 13064; VInt 3068; VInt (-2438); VInt 3075; VInt 8775]); ("color_pattern", VStr "RGGB"); ("crops", VArr [VInt 6; VInt 0; VInt 2; VInt 48]); ("blackareav", VArr [VInt 0; VInt 46]); ("hints", VArr [VStr "nocinfo2"])].
(** data/cameras/canon/d60.toml *)
Definition cam_55 : table :=
  [("make", VStr "Canon"); ("model", VStr "Canon EOS D60"); ("clean_make", VStr "Canon"); ("clean_model", VStr "EOS D60"); ("blackpoint", VInt 127); ("whitepoint", VInt 4000); ("color_matrix", VArr [VInt 6188; VInt (-1341); VInt (-890); VInt (-7168); VInt 14489; VInt 2937; VInt (-2640); VInt 3228; VInt 8483]); ("color_pattern", VStr "RGGB"); ("crops", VArr [VInt 12; VInt 0; VInt 0; VInt 64]); ("wb_offset", VInt 1); ("blackareav", VArr [VInt 0; VInt 60])].
(** data/cameras/canon/g1.toml *)
Definition cam_56 : table :=
  [("make", VStr "Canon"); ("model", VStr "Canon PowerShot G1"); ("clean_make", VStr "Canon"); ("clean_model", VStr "PowerShot G1"); ("blackpoint", VInt 31); ("whitepoint", VInt 1023); ("color_matrix", VArr [VInt (-4778); VInt 9467; VInt 2172; VInt 4743; VInt (-1141); VInt 4344; VInt (-5146); VInt 9908; VInt 6077; VInt (-1566); VInt 11051; VInt 557]); ("color_pattern", VStr "RGEB"); ("crops", VArr [VInt 8; VInt 52; VInt 2; VInt 4]); ("hints", VArr [VStr "nolowbits"]); ("blackareav", VArr [VInt 2094; VInt 50])].
(** data/cameras/canon/g10.toml *)
Definition cam_57 : table :=
  [("make", VStr "Canon"); ("model", VStr "Canon PowerShot G10"); ("clean_make", VStr "Canon"); ("clean_model", VStr "PowerShot G10"); ("blackpoint", VInt 128); ("whitepoint", VInt 4095); ("color_matrix", VArr [VInt 11093; VInt (-3906); VInt (-1028); VInt (-5047); VInt 12492; VInt 2879; VInt (-1003); VInt 1750; VInt 5561]); ("color_pattern", VStr "GBRG"); ("crops", VArr [VInt 13; VInt 36; VInt 12; VInt 12]); ("wb_offset", VInt 71)].
(** data/cameras/canon/g11.toml *)
Definition cam_58 : table :=
  [("make", VStr "Canon"); ("model", VStr "Canon PowerShot G11"); ("clean_make", VStr "Canon"); ("clean_model", VStr "PowerShot G11"); ("blackpoint", VInt 128); ("whitepoint", VInt 4095); ("color_matrix", VArr [VInt 12177; VInt (-4817); VInt (-1069); VInt (-1612); VInt 9864; VInt 2049; VInt (-98); VInt 850; VInt 4471]); ("color_pattern", VStr "RGGB"); ("crops", VArr [VInt 18; VInt 56; VInt 14; VInt 10]); ("blackareav", VArr [VInt 3696; VInt 48]); ("wb_offset", VInt 71)].
(** data/cameras/canon/g12.toml *)
Definition cam_59 : table :=
  [("make", VStr "Canon"); ("model", VStr "Canon PowerShot G12"); ("clean_make", VStr "Canon"); ("clean_model", VStr "PowerShot G12"); ("blackpoint", VInt 128); ("whitepoint", VInt 4000); ("color_matrix", VArr [VInt 13244; VInt (-5501); VInt (-1248); VInt (-1508); VInt 9858; VInt 1935; VInt (-270); VInt 1083; VInt 4366]); ("color_pattern", VStr "RGGB"); ("crops", VArr [VInt 14; VInt 12; VInt 18; VInt 54]); ("blackareav", VArr [VInt 0; VInt 50]); ("wb_offset", VInt 71)].
(** data/cameras/canon/g15.toml *)
Definition cam_60 : table :=
  [("make", VStr "Canon"); ("model", VStr "Canon PowerShot G15"); ("clean_make", VStr "Canon"); ("clean_model", VStr "PowerShot G15"); ("blackpoint", VInt 128); ("whitepoint", VInt 4000); ("color_matrix", VArr [VInt 7474; VInt (-2301); VInt (-567); VInt (-4056); VInt 11456; VInt 2975; VInt (-222); VInt 716; VInt 4181]); ("color_pattern", VStr "GBRG"); ("crops", VArr [VInt 12; VInt 10; VInt 66; VInt 106]); ("blackareav", VArr [VInt 0; VInt 100]); ("blackareah", VArr [VInt 3062; VInt 60]); ("wb_offset", VInt 71)].
(** data/cameras/canon/g16.toml *)
Definition cam_61 : table :=
  [("make", VStr "Canon"); ("model", VStr "Canon PowerShot G16"); ("clean_make", VStr "Canon"); ("clean_model", VStr "PowerShot G16"); ("blackpoint", VInt 128); ("whitepoint", VInt 4000); ("color_matrix", VArr [VInt 8020; VInt (-2687); VInt (-682); VInt (-3704); VInt 11879; VInt 2052; VInt (-965); VInt 1921; VInt 5556]); ("color_pattern", VStr "RGGB"); ("crops", VArr [VInt 18; VInt 24; VInt 0; VInt 96]); ("blackareav", VArr [VInt 0; VInt 80]); ("wb_offset", VInt 71)].
(** data/cameras/canon/g1x.toml *)
Definition cam_62 : table :=
  [("make", VStr "Canon"); ("model", VStr "Canon PowerShot G1 X"); ("clean_make", VStr "Canon"); ("clean_model", VStr "PowerShot G1 X"); ("blackpoint", VInt 512); ("whitepoint", VInt 16000); ("color_matrix", VArr [VInt 7378; VInt (-1255); VInt (-1043); VInt (-4088); VInt 12251; VInt 2048; VInt (-876); VInt 1946; VInt 5805]); ("color_pattern", VStr "RGGB"); ("crops", VArr [VInt 52; VInt 14; VInt 0; VInt 82]); ("blackareav", VArr [VInt 0; VInt 68]); ("blackareah", VArr [VInt 0; VInt 46]); ("wb_offset", VInt 71)].
(** data/cameras/canon/g1xm2.toml *)
Definition cam_63 : table :=
  [("make", VStr "Canon"); ("model", VStr "Canon PowerShot G1 X Mark II"); ("clean_make", VStr "Canon"); ("clean_model", VStr "PowerShot G1 X Mark II"); ("blackpoint", VInt 512); ("whitepoint", VInt 16000); ("color_matrix", VArr [VInt 7378; VInt (-1255); VInt (-1043); VInt (-4088); VInt 12251; VInt 2048; VInt (-876); VInt 1946; VInt 5805]); ("color_pattern", VStr "RGGB"); ("crops", VArr [VInt 52; VInt 14; VInt 0; VInt 82]); ("blackareav", VArr [VInt 0; VInt 68]); ("blackareah", VArr [VInt 0; VInt 46]); ("wb_offset", VInt 71)].
(** data/cameras/canon/g2.toml *)
Definition cam_64 : table :=
  [("make", VStr "Canon"); ("model", VStr "Canon PowerShot G2"); ("clean_make", VStr "Canon"); ("clean_model", VStr "PowerShot G2"); ("blackpoint", VInt 0); ("whitepoint", VInt 1023); ("color_matrix", VArr [VInt 9087; VInt (-2693); VInt (-1049); VInt (-6715); VInt 14382; VInt 2537; VInt (-2291); VInt 2819; VInt 7790]); ("color_pattern", VStr "RGGB"); ("crops", VArr [VInt 6; VInt 52; VInt 2; VInt 12]); ("hints", VArr [VStr "nolowbits"]); ("blackareav", VArr [VInt 2326; VInt 50])].
(** data/cameras/canon/g3.toml *)
Definition cam_65 : table :=
  [("make", VStr "Canon"); ("model", VStr "Canon PowerShot G3"); ("clean_make", VStr "Canon"); ("clean_model", VStr "PowerShot G3"); ("blackpoint", VInt 0); ("whitepoint", VInt 4095); ("color_matrix", VArr [VInt 9212; VInt (-2781); VInt (-1073); VInt (-6573); VInt 14189; VInt 2605; VInt (-2300); VInt 2844; VInt 7664]); ("color_pattern", VStr "RGGB"); ("crops", VArr [VInt 6; VInt 52; VInt 2; VInt 12]); ("wb_offset", VInt 60); ("blackareav", VArr [VInt 2326; VInt 50])].
(** data/cameras/canon/g3x.toml *)
Definition cam_66 : table :=
  [("make", VStr "Canon"); ("model", VStr "Canon PowerShot G3 X"); ("clean_make", VStr "Canon"); ("clean_model", VStr "PowerShot G3 X"); ("blackpoint", VInt 2047); ("whitepoint", VInt 16000); ("color_matrix", VArr [VInt 9701; VInt (-3857); VInt (-921); VInt (-3149); VInt 11537; VInt 1817; VInt (-786); VInt 1817; VInt 5147]); ("color_pattern", VStr "RGGB"); ("crops", VArr [VInt 17; VInt 0; VInt 0; VInt 96]); ("blackareav", VArr [VInt 0; VInt 90]); ("wb_offset", VInt 71)].
(** data/cameras/canon/g5.toml *)
Definition cam_67 : table :=
  [("make", VStr "Canon"); ("model", VStr "Canon PowerShot G5"); ("clean_make", VStr "Canon"); ("clean_model", VStr "PowerShot G5"); ("blackpoint", VInt 0); ("whitepoint", VInt 4095); ("color_matrix", VArr [VInt 9757; VInt (-2872); VInt (-933); VInt (-5972); VInt 13861; VInt 2301; VInt (-1622); VInt 2328; VInt 7212]); ("color_pattern", VStr "RGGB"); ("crops", VArr [VInt 6; VInt 44; VInt 2; VInt 12]); ("wb_offset", VInt 60); ("blackareav", VArr [VInt 2632; VInt 40])].
(** data/cameras/canon/g5x.toml *)
Definition cam_68 : table :=
  [("make", VStr "Canon"); ("model", VStr "Canon PowerShot G5 X"); ("clean_make", VStr "Canon"); ("clean_model", VStr "PowerShot G5 X"); ("blackpoint", VInt 2047); ("whitepoint", VInt 16000); ("color_matrix", VArr [VInt 9602; VInt (-3823); VInt (-937); VInt (-2984); VInt 11495; VInt 1675; VInt (-407); VInt 1415; VInt 5049]); ("color_pattern", VStr "RGGB"); ("crops", VArr [VInt 17; VInt 0; VInt 0; VInt 96]); ("wb_offset", VInt 71)].
(** data/cameras/canon/g6.toml *)
Definition cam_69 : table :=
  [("make", VStr "Canon"); ("model", VStr "Canon PowerShot G6"); ("clean_make", VStr "Canon"); ("clean_model", VStr "PowerShot G6"); ("blackpoint", VInt 128); ("whitepoint", VInt 4095); ("color_matrix", VArr [VInt 9877; VInt (-3775); VInt (-871); VInt (-7613); VInt 14807; VInt 3072; VInt (-1448); VInt 1305; VInt 7485]); ("color_pattern", VStr "RGGB"); ("crops", VArr [VInt 12; VInt 4; VInt 4; VInt 44]); ("wb_offset", VInt 48); ("hints", VArr [VStr "wb_mangle"]); ("blackareav", VArr [VInt 0; VInt 40])].
(** data/cameras/canon/g7x.toml *)
Definition cam_70 : table :=
  [("make", VStr "Canon"); ("model", VStr "Canon PowerShot G7 X"); ("clean_make", VStr "Canon"); ("clean_model", VStr "PowerShot G7 X"); ("blackpoint", VInt 511); ("whitepoint", VInt 4000); ("color_matrix", VArr [VInt 9602; VInt (-3823); VInt (-937); VInt (-2984); VInt 11495; VInt 1675; VInt (-407); VInt 1415; VInt 5049]); ("color_pattern", VStr "RGGB"); ("crops", VArr [VInt 18; VInt 0; VInt 0; VInt 96]); ("wb_offset", VInt 71)].
(** data/cameras/canon/g7x_crw.toml *)
Definition cam_71 : table :=
  [("make", VStr "Canon"); ("model", VStr "Canon PowerShot G7 X CRW"); ("clean_make", VStr "Canon"); ("clean_model", VStr "PowerShot G7 X"); ("blackpoint", VInt 511); ("whitepoint", VInt 4000); ("color_matrix", VArr [VInt 9602; VInt (-3823); VInt (-937); VInt (-2984); VInt 11495; VInt 1675; VInt (-407); VInt 1415; VInt 5049]); ("color_pattern", VStr "RGGB"); ("crops", VArr [VInt 18; VInt 0; VInt 0; VInt 96]); ("filesize", VInt 31342080); ("raw_width", VInt 5632); ("raw_height", VInt 3710)].
(** data/cameras/canon/g7xm2.toml *)
Definition cam_72 : table :=
  [("make", VStr "Canon"); ("model", VStr "Canon PowerShot G7 X Mark II"); ("clean_make", VStr "Canon"); ("clean_model", VStr "Canon PowerShot G7 X Mark II"); ("blackpoint", VInt 2047); ("whitepoint", VInt 16000); ("color_matrix", VArr [VInt 9602; VInt (-3823); VInt (-937); VInt (-2984); VInt 11495; VInt 1675; VInt (-407); VInt 1415; VInt 5049]); ("color_pattern", VStr "RGGB"); ("crops", VArr [VInt 0; VInt 0; VInt 0; VInt 0]); ("wb_offset", VInt 71)].
(** data/cameras/canon/g9.toml *)
Definition cam_73 : table :=
  [("make", VStr "Canon"); ("model", VStr "Canon PowerShot G9"); ("clean_make", VStr "Canon"); ("clean_model", VStr "PowerShot G9"); ("blackpoint", VInt 0); ("whitepoint", VInt 4095); ("color_matrix", VArr [VInt 7368; VInt (-2141); VInt (-598); VInt (-5621); VInt 13254; VInt 2625; VInt (-1418); VInt 1696; VInt 5743]); ("color_pattern", VStr "RGGB"); ("crops", VArr [VInt 12; VInt 24; VInt 12; VInt 48]); ("blackareav", VArr [VInt 0; VInt 46])].
(** data/cameras/canon/m.toml *)
Definition cam_74 : table :=
  [("make", VStr "Canon"); ("model", VStr "Canon EOS M"); ("clean_make", VStr "Canon"); ("clean_model", VStr "EOS M"); ("blackpoint", VInt 2048); ("whitepoint", VInt 11222); ("color_matrix", VArr [VInt 6602; VInt (-841); VInt (-939); VInt (-4472); VInt 12458; VInt 2247; VInt (-975); VInt 2039; VInt 6148]); ("color_pattern", VStr "RGGB"); ("crops", VArr [VInt 56; VInt 0; VInt 0; VInt 76]); ("blackareav", VArr [VInt 0; VInt 70]); ("blackareah", VArr [VInt 4; VInt 44])].
(** data/cameras/canon/m2.toml *)
Definition cam_75 : table :=
  [("make", VStr "Canon"); ("model", VStr "Canon EOS M2"); ("clean_make", VStr "Canon"); ("clean_model", VStr "EOS M2"); ("blackpoint", VInt 2047); ("whitepoint", VInt 12277); ("color_matrix", VArr [VInt 6400; VInt (-480); VInt (-888); VInt (-5294); VInt 13416; VInt 2047; VInt (-1296); VInt 2203; VInt 6137]); ("color_pattern", VStr "RGGB"); ("crops", VArr [VInt 52; VInt 0; VInt 0; VInt 72]); ("blackareav", VArr [VInt 0; VInt 70]); ("blackareah", VArr [VInt 4; VInt 44])].
(** data/cameras/canon/m3.toml *)
Definition cam_76 : table :=
  [("make", VStr "Canon"); ("model", VStr "Canon EOS M3"); ("clean_make", VStr "Canon"); ("clean_model", VStr "EOS M3"); ("blackpoint", VInt 2048); ("whitepoint", VInt 16000); ("color_matrix", VArr [VInt 6362; VInt (-823); VInt (-847); VInt (-4426); VInt 12109; VInt 2616; VInt (-743); VInt 1857; VInt 5635]); ("color_pattern", VStr "RGGB"); ("crops", VArr [VInt 34; VInt 0; VInt 0; VInt 72]); ("blackareav", VArr [VInt 2; VInt 68]); ("blackareah", VArr [VInt 2; VInt 30]); ("wb_offset", VInt 71)].
(** data/cameras/canon/m5.toml *)
Definition cam_77 : table :=
  [("make", VStr "Canon"); ("model", VStr "Canon EOS M5"); ("clean_make", VStr "Canon"); ("clean_model", VStr "Canon EOS M5"); ("blackpoint", VInt 512); ("whitepoint", VInt 16000); ("color_matrix", VArr [VInt 8532; VInt (-701); VInt (-1167); VInt (-4095); VInt 11879; VInt 2508; VInt (-797); VInt 2424; VInt 7010]); ("color_pattern", VStr "RGGB"); ("crops", VArr [VInt 36; VInt 0; VInt 0; VInt 264]); ("blackareav", VArr [VInt 0; VInt 260]); ("blackareah", VArr [VInt 0; VInt 30]); ("wb_offset", VInt 71)].
(** data/cameras/canon/m6.toml *)
Definition cam_78 : table :=
  [("make", VStr "Canon"); ("model", VStr "Canon EOS M6"); ("clean_make", VStr "Canon"); ("clean_model", VStr "Canon EOS M6"); ("blackpoint", VInt 512); ("whitepoint", VInt 16000); ("color_matrix", VArr [VInt 8532; VInt (-701); VInt (-1167); VInt (-4095); VInt 11879; VInt 2508; VInt (-797); VInt 2424; VInt 7010]); ("color_pattern", VStr "RGGB"); ("crops", VArr [VInt 36; VInt 0; VInt 0; VInt 264]); ("blackareav", VArr [VInt 0; VInt 260]); ("blackareah", VArr [VInt 0; VInt 30]); ("wb_offset", VInt 71)].
(** data/cameras/canon/pro1.toml *)
Definition cam_79 : table :=
  [("make", VStr "Canon"); ("model", VStr "Canon PowerShot Pro1"); ("clean_make", VStr "Canon"); ("clean_model", VStr "PowerShot Pro1"); ("blackpoint", VInt 129); ("whitepoint", VInt 4095); ("color_matrix", VArr [VInt 10062; VInt (-3522); VInt (-999); VInt (-7643); VInt 15117; VInt 2730; VInt (-765); VInt 817; VInt 7323]); ("color_pattern", VStr "RGGB"); ("crops", VArr [VInt 6; VInt 52; VInt 6; VInt 4]); ("wb_offset", VInt 48); ("hints", VArr [VStr "wb_mangle"]); ("blackareav", VArr [VInt 3294; VInt 50])].
(** data/cameras/canon/pro70.toml *)
Definition cam_80 : table :=
  [("make", VStr "Canon"); ("model", VStr "Canon PowerShot Pro70"); ("clean_make", VStr "Canon"); ("clean_model", VStr "PowerShot Pro70"); ("blackpoint", VInt 34); ("whitepoint", VInt 990); ("color_matrix", VArr [VInt (-4155); VInt 9818; VInt 1529; VInt 3939; VInt (-25); VInt 4522; VInt (-5521); VInt 9870; VInt 6610; VInt (-2238); VInt 10873; VInt 1342]); ("color_pattern", VStr "EBGRBERGEBRGBEGR"); ("crops", VArr [VInt 0; VInt 0; VInt 0; VInt 0])].
(** data/cameras/canon/s100.toml *)
Definition cam_81 : table :=
  [("make", VStr "Canon"); ("model", VStr "Canon PowerShot S100"); ("clean_make", VStr "Canon"); ("clean_model", VStr "PowerShot S100"); ("blackpoint", VInt 128); ("whitepoint", VInt 4000); ("color_matrix", VArr [VInt 7968; VInt (-2565); VInt (-636); VInt (-2873); VInt 10697; VInt 2513; VInt 180; VInt 667; VInt 4211]); ("color_pattern", VStr "GBRG"); ("crops", VArr [VInt 12; VInt 10; VInt 66; VInt 104]); ("blackareav", VArr [VInt 0; VInt 100]); ("blackareah", VArr [VInt 3062; VInt 60]); ("wb_offset", VInt 71)].
(** data/cameras/canon/s100_crw.toml *)
Definition cam_82 : table :=
  [("make", VStr "Canon"); ("model", VStr "Canon PowerShot S100 CRW"); ("clean_make", VStr "Canon"); ("clean_model", VStr "PowerShot S100"); ("blackpoint", VInt 128); ("whitepoint", VInt 4000); ("color_matrix", VArr [VInt 7968; VInt (-2565); VInt (-636); VInt (-2873); VInt 10697; VInt 2513; VInt 180; VInt 667; VInt 4211]); ("color_pattern", VStr "GBRG"); ("crops", VArr [VInt 12; VInt 10; VInt 66; VInt 104]); ("blackareav", VArr [VInt 0; VInt 100]); ("blackareah", VArr [VInt 3062; VInt 60]); ("filesize", VInt 19493760); ("raw_width", VInt 4160); ("raw_height", VInt 3124)].
(** data/cameras/canon/s110.toml *)
Definition cam_83 : table :=
  [("make", VStr "Canon"); ("model", VStr "Canon PowerShot S110"); ("clean_make", VStr "Canon"); ("clean_model", VStr "PowerShot S110"); ("blackpoint", VInt 128); ("whitepoint", VInt 4000); ("color_matrix", VArr [VInt 8039; VInt (-2643); VInt (-654); VInt (-3783); VInt 11230; VInt 2930; VInt (-206); VInt 690; VInt 4194]); ("color_pattern", VStr "GBRG"); ("crops", VArr [VInt 12; VInt 10; VInt 66; VInt 106]); ("blackareav", VArr [VInt 0; VInt 100]); ("blackareah", VArr [VInt 3062; VInt 60]); ("wb_offset", VInt 71)].
(** data/cameras/canon/s120.toml *)
Definition cam_84 : table :=
  [("make", VStr "Canon"); ("model", VStr "Canon PowerShot S120"); ("clean_make", VStr "Canon"); ("clean_model", VStr "PowerShot S120"); ("blackpoint", VInt 127); ("whitepoint", VInt 4000); ("color_matrix", VArr [VInt 6961; VInt (-1685); VInt (-695); VInt (-4625); VInt 12945; VInt 1836; VInt (-1114); VInt 2152; VInt 5518]); ("color_pattern", VStr "RGGB"); ("crops", VArr [VInt 30; VInt 47; VInt 14; VInt 121]); ("blackareav", VArr [VInt 0; VInt 74]); ("wb_offset", VInt 71)].
(** data/cameras/canon/s30.toml *)
Definition cam_85 : table :=
  [("make", VStr "Canon"); ("model", VStr "Canon PowerShot S30"); ("clean_make", VStr "Canon"); ("clean_model", VStr "PowerShot S30"); ("blackpoint", VInt 31); ("whitepoint", VInt 1023); ("color_matrix", VArr [VInt 10566; VInt (-3652); VInt (-1129); VInt (-6552); VInt 14662; VInt 2006; VInt (-2197); VInt 2581; VInt 7670]); ("color_pattern", VStr "RGGB"); ("crops", VArr [VInt 8; VInt 52; VInt 2; VInt 4]); ("hints", VArr [VStr "nolowbits"]); ("blackareav", VArr [VInt 2094; VInt 50])].
(** data/cameras/canon/s3is.toml *)
Definition cam_86 : table :=
  [("make", VStr "Canon"); ("model", VStr "PowerShot S3 IS"); ("clean_make", VStr "Canon"); ("clean_model", VStr "PowerShot S3 IS"); ("blackpoint", VInt 0); ("whitepoint", VInt 1023); ("color_matrix", VArr [VInt 14062; VInt (-5199); VInt (-1446); VInt (-4712); VInt 12470; VInt 2243; VInt (-1286); VInt 2028; VInt 4836]); ("color_pattern", VStr "RGGB"); ("crops", VArr [VInt 8; VInt 4; VInt 0; VInt 44]); ("filesize", VInt 7710960); ("raw_width", VInt 2888); ("raw_height", VInt 2136); ("blackareav", VArr [VInt 0; VInt 40])].
(** data/cameras/canon/s40.toml *)
Definition cam_87 : table :=
  [("make", VStr "Canon"); ("model", VStr "Canon PowerShot S40"); ("clean_make", VStr "Canon"); ("clean_model", VStr "PowerShot S40"); ("blackpoint", VInt 0); ("whitepoint", VInt 1023); ("color_matrix", VArr [VInt 8510; VInt (-2487); VInt (-940); VInt (-6869); VInt 14231; VInt 2900; VInt (-2318); VInt 2829; VInt 9013]); ("color_pattern", VStr "RGGB"); ("crops", VArr [VInt 6; VInt 52; VInt 2; VInt 12]); ("hints", VArr [VStr "nolowbits"]); ("wb_offset", VInt 60); ("blackareav", VArr [VInt 2326; VInt 50])].
(** data/cameras/canon/s45.toml *)
Definition cam_88 : table :=
  [("make", VStr "Canon"); ("model", VStr "Canon PowerShot S45"); ("clean_make", VStr "Canon"); ("clean_model", VStr "PowerShot S45"); ("blackpoint", VInt 0); ("whitepoint", VInt 4095); ("color_matrix", VArr [VInt 8163; VInt (-2333); VInt (-955); VInt (-6682); VInt 14174; VInt 2751; VInt (-2077); VInt 2597; VInt 8041]); ("color_pattern", VStr "RGGB"); ("crops", VArr [VInt 6; VInt 52; VInt 2; VInt 12]); ("wb_offset", VInt 60); ("blackareav", VArr [VInt 2326; VInt 50])].
(** data/cameras/canon/s50.toml *)
Definition cam_89 : table :=
  [("make", VStr "Canon"); ("model", VStr "Canon PowerShot S50"); ("clean_make", VStr "Canon"); ("clean_model", VStr "PowerShot S50"); ("blackpoint", VInt 0); ("whitepoint", VInt 4095); ("color_matrix", VArr [VInt 8882; VInt (-2571); VInt (-863); VInt (-6348); VInt 14234; VInt 2288; VInt (-1516); VInt 2172; VInt 6569]); ("color_pattern", VStr "RGGB"); ("crops", VArr [VInt 6; VInt 44; VInt 2; VInt 12]); ("wb_offset", VInt 60); ("blackareav", VArr [VInt 2632; VInt 40])].
(** data/cameras/canon/s60.toml *)
Definition cam_90 : table :=
  [("make", VStr "Canon"); ("model", VStr "Canon PowerShot S60"); ("clean_make", VStr "Canon"); ("clean_model", VStr "PowerShot S60"); ("blackpoint", VInt 0); ("whitepoint", VInt 4095); ("color_matrix", VArr [VInt 8795; VInt (-2482); VInt (-797); VInt (-7804); VInt 15403; VInt 2573; VInt (-1422); VInt 1996; VInt 7082]); ("color_pattern", VStr "RGGB"); ("crops", VArr [VInt 6; VInt 44; VInt 2; VInt 12]); ("wb_offset", VInt 48); ("hints", VArr [VStr "wb_mangle"]); ("blackareav", VArr [VInt 2632; VInt 40])].
(** data/cameras/canon/s70.toml *)
Definition cam_91 : table :=
  [("make", VStr "Canon"); ("model", VStr "Canon PowerShot S70"); ("clean_make", VStr "Canon"); ("clean_model", VStr "PowerShot S70"); ("blackpoint", VInt 129); ("whitepoint", VInt 4095); ("color_matrix", VArr [VInt 9976; VInt (-3810); VInt (-832); VInt (-7115); VInt 14463; VInt 2906; VInt (-901); VInt 989; VInt 7889]); ("color_pattern", VStr "RGGB"); ("crops", VArr [VInt 12; VInt 4; VInt 4; VInt 44]); ("wb_offset", VInt 48); ("hints", VArr [VStr "wb_mangle"]); ("blackareav", VArr [VInt 0; VInt 40])].
(** data/cameras/canon/s90.toml *)
Definition cam_92 : table :=
  [("make", VStr "Canon"); ("model", VStr "Canon PowerShot S90"); ("clean_make", VStr "Canon"); ("clean_model", VStr "PowerShot S90"); ("blackpoint", VInt 128); ("whitepoint", VInt 4095); ("color_matrix", VArr [VInt 12374; VInt (-5016); VInt (-1049); VInt (-1677); VInt 9902; VInt 2078; VInt (-83); VInt 852; VInt 4683]); ("color_pattern", VStr "RGGB"); ("crops", VArr [VInt 18; VInt 54; VInt 10; VInt 10]); ("wb_offset", VInt 71)].
(** data/cameras/canon/sl1.toml *)
Definition cam_93 : table :=
  [("make", VStr "Canon"); ("model", VStr "Canon EOS REBEL SL1"); ("clean_make", VStr "Canon"); ("clean_model", VStr "EOS Rebel SL1"); ("blackpoint", VInt 2048); ("whitepoint", VInt 15000); ("color_matrix", VArr [VInt 6602; VInt (-841); VInt (-939); VInt (-4472); VInt 12458; VInt 2247; VInt (-975); VInt 2039; VInt 6148]); ("color_pattern", VStr "RGGB"); ("crops", VArr [VInt 52; VInt 0; VInt 0; VInt 72])].
(** data/cameras/canon/sx110is.toml *)
Definition cam_94 : table :=
  [("make", VStr "Canon"); ("model", VStr "PowerShot SX110 IS"); ("clean_make", VStr "Canon"); ("clean_model", VStr "PowerShot SX110 IS"); ("blackpoint", VInt 0); ("whitepoint", VInt 4095); ("color_matrix", VArr [VInt 14134; VInt (-5576); VInt (-1527); VInt (-1991); VInt 10719; VInt 1273; VInt (-1158); VInt 1929; VInt 3581]); ("color_pattern", VStr "RGGB"); ("crops", VArr [VInt 12; VInt 30; VInt 0; VInt 6]); ("filesize", VInt 15467760); ("raw_width", VInt 3720); ("raw_height", VInt 2772); ("blackareav", VArr [VInt 3690; VInt 30])].
(** data/cameras/canon/sx1is.toml *)
Definition cam_95 : table :=
  [("make", VStr "Canon"); ("model", VStr "Canon PowerShot SX1 IS"); ("clean_make", VStr "Canon"); ("clean_model", VStr "PowerShot SX1 IS"); ("blackpoint", VInt 128); ("whitepoint", VInt 4095); ("color_matrix", VArr [VInt 6578; VInt (-259); VInt (-502); VInt (-5974); VInt 13030; VInt 3309; VInt (-308); VInt 1058; VInt 4970]); ("color_pattern", VStr "RGGB"); ("crops", VArr [VInt 12; VInt 2; VInt 0; VInt 192]); ("blackareav", VArr [VInt 0; VInt 188]); ("wb_offset", VInt 71)].
(** data/cameras/canon/sx40hs.toml *)
Definition cam_96 : table :=
  [("make", VStr "Canon"); ("model", VStr "Canon PowerShot SX40 HS"); ("clean_make", VStr "Canon"); ("clean_model", VStr "PowerShot SX40 HS"); ("blackpoint", VInt 0); ("whitepoint", VInt 4095); ("color_matrix", VArr [VInt 12432; VInt (-4753); VInt (-1247); VInt (-2110); VInt 10691; VInt 1629; VInt (-412); VInt 1623; VInt 4926]); ("color_pattern", VStr "RGGB"); ("crops", VArr [VInt 16; VInt 8; VInt 0; VInt 96]); ("filesize", VInt 19167840); ("raw_width", VInt 4176); ("raw_height", VInt 3060); ("blackareav", VArr [VInt 0; VInt 94])].
(** data/cameras/canon/sx50.toml *)
Definition cam_97 : table :=
  [("make", VStr "Canon"); ("model", VStr "Canon PowerShot SX50 HS"); ("clean_make", VStr "Canon"); ("clean_model", VStr "PowerShot SX50 HS"); ("blackpoint", VInt 128); ("whitepoint", VInt 4000); ("color_matrix", VArr [VInt 12432; VInt (-4753); VInt (-1247); VInt (-2110); VInt 10691; VInt 1629; VInt (-412); VInt 1623; VInt 4926]); ("color_pattern", VStr "RGGB"); ("crops", VArr [VInt 20; VInt 10; VInt 0; VInt 100]); ("blackareav", VArr [VInt 6; VInt 70]); ("wb_offset", VInt 71)].
(** data/cameras/canon/sx60hs.toml *)
Definition cam_98 : table :=
  [("make", VStr "Canon"); ("model", VStr "Canon PowerShot SX60 HS"); ("clean_make", VStr "Canon"); ("clean_model", VStr "PowerShot SX60 HS"); ("blackpoint", VInt 128); ("whitepoint", VInt 4000); ("color_matrix", VArr [VInt 13161; VInt (-5451); VInt (-1344); VInt (-1989); VInt 10654; VInt 1531; VInt (-47); VInt 1271; VInt 4955]); ("color_pattern", VStr "RGGB"); ("crops", VArr [VInt 26; VInt 24; VInt 10; VInt 112]); ("blackareav", VArr [VInt 0; VInt 70]); ("wb_offset", VInt 71)].
(** data/cameras/canon/t1i.toml *)
Definition cam_99 : table :=
  [("make", VStr "Canon"); ("model", VStr "Canon EOS REBEL T1i"); ("clean_make", VStr "Canon"); ("clean_model", VStr "EOS Rebel T1i"); ("blackpoint", VInt 1024); ("whitepoint", VInt 15600); ("color_matrix", VArr [VInt 4763; VInt 712; VInt (-646); VInt (-6821); VInt 14399; VInt 2640; VInt (-1921); VInt 3276; VInt 6561]); ("color_pattern", VStr "RGGB"); ("crops", VArr [VInt 30; VInt 48; VInt 32; VInt 62])].
(** data/cameras/canon/t2i.toml *)
Definition cam_100 : table :=
  [("make", VStr "Canon"); ("model", VStr "Canon EOS REBEL T2i"); ("clean_make", VStr "Canon"); ("clean_model", VStr "EOS Rebel T2i"); ("blackpoint", VInt 2048); ("whitepoint", VInt 15831); ("color_matrix", VArr [VInt 6941; VInt (-1164); VInt (-857); VInt (-3825); VInt 11597; VInt 2534; VInt (-416); VInt 1540; VInt 6039]); ("color_pattern", VStr "GBRG"); ("crops", VArr [VInt 54; VInt 0; VInt 0; VInt 148]); ("blackareav", VArr [VInt 0; VInt 140]); ("blackareah", VArr [VInt 4; VInt 44])].
(** data/cameras/canon/t3.toml *)
Definition cam_101 : table :=
  [("make", VStr "Canon"); ("model", VStr "Canon EOS REBEL T3"); ("clean_make", VStr "Canon"); ("clean_model", VStr "EOS Rebel T3"); ("blackpoint", VInt 2046); ("whitepoint", VInt 15000); ("color_matrix", VArr [VInt 6444; VInt (-904); VInt (-893); VInt (-4563); VInt 12308; VInt 2535; VInt (-903); VInt 2016; VInt 6728]); ("color_pattern", VStr "RGGB"); ("crops", VArr [VInt 20; VInt 0; VInt 0; VInt 64]); ("blackareav", VArr [VInt 0; VInt 58])].
(** data/cameras/canon/t3i.toml *)
Definition cam_102 : table :=
  [("make", VStr "Canon"); ("model", VStr "Canon EOS REBEL T3i"); ("clean_make", VStr "Canon"); ("clean_model", VStr "EOS Rebel T3i"); ("blackpoint", VInt 2048); ("whitepoint", VInt 13926); ("color_matrix", VArr [VInt 6461; VInt (-907); VInt (-882); VInt (-4300); VInt 12184; VInt 2378; VInt (-819); VInt 1944; VInt 5931]); ("color_pattern", VStr "GBRG"); ("crops", VArr [VInt 54; VInt 0; VInt 0; VInt 146]); ("blackareav", VArr [VInt 0; VInt 140]); ("blackareah", VArr [VInt 4; VInt 44])].
(** data/cameras/canon/t5.toml *)
Definition cam_103 : table :=
  [("make", VStr "Canon"); ("model", VStr "Canon EOS REBEL T5"); ("clean_make", VStr "Canon"); ("clean_model", VStr "EOS Rebel T5"); ("blackpoint", VInt 2046); ("whitepoint", VInt 12279); ("color_matrix", VArr [VInt 6461; VInt (-907); VInt (-882); VInt (-4300); VInt 12184; VInt 2378; VInt (-819); VInt 1944; VInt 5931]); ("color_pattern", VStr "GBRG"); ("crops", VArr [VInt 54; VInt 0; VInt 0; VInt 146]); ("blackareav", VArr [VInt 0; VInt 140]); ("blackareah", VArr [VInt 4; VInt 44])].
(** data/cameras/canon/t5i.toml *)
Definition cam_104 : table :=
  [("make", VStr "Canon"); ("model", VStr "Canon EOS REBEL T5i"); ("clean_make", VStr "Canon"); ("clean_model", VStr "EOS Rebel T5i"); ("blackpoint", VInt 2047); ("whitepoint", VInt 12277); ("color_matrix", VArr [VInt 6602; VInt (-841); VInt (-939); VInt (-4472); VInt 12458; VInt 2247; VInt (-975); VInt 2039; VInt 6148]); ("color_pattern", VStr "RGGB"); ("crops", VArr [VInt 52; VInt 0; VInt 0; VInt 72])].
(** data/cameras/canon/t6.toml *)
Definition cam_105 : table :=
  [("make", VStr "Canon"); ("model", VStr "Canon EOS Rebel T6"); ("clean_make", VStr "Canon"); ("clean_model", VStr "Canon EOS Rebel T6"); ("blackpoint", VInt 2046); ("whitepoint", VInt 12279); ("color_matrix", VArr [VInt 6939; VInt (-1016); VInt (-866); VInt (-4428); VInt 12473; VInt 2177; VInt (-1175); VInt 2178; VInt 6162]); ("color_pattern", VStr "GRBG"); ("crops", VArr [VInt 50; VInt 0; VInt 0; VInt 142]); ("blackareav", VArr [VInt 0; VInt 140])].
(** data/cameras/canon/t6i.toml *)
Definition cam_106 : table :=
  [("make", VStr "Canon"); ("model", VStr "Canon EOS Rebel T6i"); ("clean_make", VStr "Canon"); ("clean_model", VStr "EOS Rebel T6i"); ("blackpoint", VInt 2048); ("whitepoint", VInt 14580); ("color_matrix", VArr [VInt 6362; VInt (-823); VInt (-847); VInt (-4426); VInt 12109; VInt 2616; VInt (-743); VInt 1857; VInt 5635]); ("color_pattern", VStr "RGGB"); ("crops", VArr [VInt 34; VInt 0; VInt 0; VInt 72])].
(** data/cameras/epson/r-d1.toml *)
Definition cam_107 : table :=
  [("make", VStr "SEIKO EPSON CORP."); ("model", VStr "R-D1"); ("clean_make", VStr "Epson"); ("clean_model", VStr "R-D1"); ("blackpoint", VInt 63); ("whitepoint", VInt 4095); ("color_matrix", VArr [VInt 6827; VInt (-1878); VInt (-732); VInt (-8429); VInt 16012; VInt 2564; VInt (-704); VInt 592; VInt 7145]); ("color_pattern", VStr "RGGB"); ("crops", VArr [VInt 0; VInt 0; VInt 0; VInt 0])].
(** data/cameras/fuji/e550.toml *)
Definition cam_108 : table :=
  [("make", VStr "FUJIFILM"); ("model", VStr "FinePix E550"); ("clean_make", VStr "Fujifilm"); ("clean_model", VStr "FinePix E550"); ("blackpoint", VInt 0); ("whitepoint", VInt 15875); ("color_matrix", VArr [VInt 11044; VInt (-3888); VInt (-1120); VInt (-7248); VInt 15168; VInt 2208; VInt (-1531); VInt 2277; VInt 8069]); ("color_pattern", VStr "GBRG"); ("crops", VArr [VInt 0; VInt 0; VInt 0; VInt 0]); ("hints", VArr [VStr "fuji_rotation"])].
(** data/cameras/fuji/e900.toml *)
Definition cam_109 : table :=
  [("make", VStr "FUJIFILM"); ("model", VStr "FinePix E900"); ("clean_make", VStr "Fujifilm"); ("clean_model", VStr "FinePix E900"); ("blackpoint", VInt 0); ("whitepoint", VInt 15564); ("color_matrix", VArr [VInt 9183; VInt (-2526); VInt (-1078); VInt (-7461); VInt 15071; VInt 2574; VInt (-2022); VInt 2440; VInt 8639]); ("color_pattern", VStr "GBRG"); ("crops", VArr [VInt 0; VInt 32; VInt 0; VInt 32]); ("hints", VArr [VStr "fuji_rotation"])].
(** data/cameras/fuji/f600exr.toml *)
Definition cam_110 : table :=
  [("make", VStr "FUJIFILM"); ("model", VStr "FinePix F600EXR"); ("clean_make", VStr "Fujifilm"); ("clean_model", VStr "FinePix F600EXR"); ("blackpoint", VInt 256); ("whitepoint", VInt 3900); ("color_matrix", VArr [VInt 13690; VInt (-5358); VInt (-1474); VInt (-3369); VInt 11600; VInt 1998; VInt (-132); VInt 1554; VInt 4395]); ("color_pattern", VStr "RGGB"); ("crops", VArr [VInt 0; VInt 32; VInt 0; VInt 34])].
(** data/cameras/fuji/f700.toml *)
Definition cam_111 : table :=
  [("make", VStr "FUJIFILM"); ("model", VStr "FinePix F700"); ("clean_make", VStr "Fujifilm"); ("clean_model", VStr "FinePix F700"); ("blackpoint", VInt 0); ("whitepoint", VInt 16383); ("color_matrix", VArr [VInt 10004; VInt (-3219); VInt (-1201); VInt (-7036); VInt 15047; VInt 2107; VInt (-1863); VInt 2565; VInt 7736]); ("color_pattern", VStr "GBRG"); ("crops", VArr [VInt 0; VInt 16; VInt 0; VInt 16]); ("hints", VArr [VStr "fuji_rotation"; VStr "double_width"])].
(** data/cameras/fuji/f900exr.toml *)
Definition cam_112 : table :=
  [("make", VStr "FUJIFILM"); ("model", VStr "FinePix F900EXR"); ("clean_make", VStr "Fujifilm"); ("clean_model", VStr "FinePix F900EXR"); ("blackpoint", VInt 256); ("whitepoint", VInt 3900); ("color_matrix", VArr [VInt 12085; VInt (-4727); VInt (-953); VInt (-3257); VInt 11489; VInt 2002; VInt (-511); VInt 2046; VInt 4592]); ("color_pattern", VStr "BGGR"); ("crops", VArr [VInt 0; VInt 64; VInt 0; VInt 0])].
(** data/cameras/fuji/gfx50s.toml *)
Definition cam_113 : table :=
  [("make", VStr "FUJIFILM"); ("model", VStr "GFX 50S"); ("clean_make", VStr "Fujifilm"); ("clean_model", VStr "GFX 50S"); ("blackpoint", VInt 1023); ("whitepoint", VInt 16383); ("color_matrix", VArr [VInt 11756; VInt (-4754); VInt (-874); VInt (-3056); VInt 11045; VInt 2305; VInt (-381); VInt 1457; VInt 6006]); ("color_pattern", VStr "RGGB"); ("crops", VArr [VInt 0; VInt 0; VInt 0; VInt 0])].
(** data/cameras/fuji/hs10.toml *)
Definition cam_114 : table :=
  [("make", VStr "FUJIFILM"); ("model", VStr "FinePix HS10 HS11"); ("clean_make", VStr "Fujifilm"); ("clean_model", VStr "FinePix HS10 HS11"); ("blackpoint", VInt 50); ("whitepoint", VInt 3900); ("color_matrix", VArr [VInt 12440; VInt (-3954); VInt (-1183); VInt (-1123); VInt 9674; VInt 1708; VInt (-83); VInt 1614; VInt 4086]); ("color_pattern", VStr "BGGR"); ("crops", VArr [VInt 0; VInt 0; VInt 0; VInt 0]); ("hints", VArr [VStr "jpeg32"])].
(** data/cameras/fuji/hs20exr.toml *)
Definition cam_115 : table :=
  [("make", VStr "FUJIFILM"); ("model", VStr "FinePix HS20EXR"); ("clean_make", VStr "Fujifilm"); ("clean_model", VStr "FinePix HS20EXR"); ("blackpoint", VInt 256); ("whitepoint", VInt 3900); ("color_matrix", VArr [VInt 13690; VInt (-5358); VInt (-1474); VInt (-3369); VInt 11600; VInt 1998; VInt (-132); VInt 1554; VInt 4395]); ("color_pattern", VStr "RGGB"); ("crops", VArr [VInt 0; VInt 32; VInt 0; VInt 34])].
(** data/cameras/fuji/hs50exr.toml *)
Definition cam_116 : table :=
  [("make", VStr "FUJIFILM"); ("model", VStr "FinePix HS50EXR"); ("clean_make", VStr "Fujifilm"); ("clean_model", VStr "FinePix HS50EXR"); ("blackpoint", VInt 256); ("whitepoint", VInt 3900); ("color_matrix", VArr [VInt 12085; VInt (-4727); VInt (-953); VInt (-3257); VInt 11489; VInt 2002; VInt (-511); VInt 2046; VInt 4592]); ("color_pattern", VStr "BGGR"); ("crops", VArr [VInt 0; VInt 64; VInt 0; VInt 0])].
(** data/cameras/fuji/s200exr.toml *)
Definition cam_117 : table :=
  [("make", VStr "FUJIFILM"); ("model", VStr "FinePix S200EXR"); ("clean_make", VStr "Fujifilm"); ("clean_model", VStr "FinePix S200EXR"); ("blackpoint", VInt 519); ("whitepoint", VInt 16250); ("color_matrix", VArr [VInt 11401; VInt (-4498); VInt (-1312); VInt (-5088); VInt 12751; VInt 2613; VInt (-838); VInt 1568; VInt 5941]); ("color_pattern", VStr "RGGB"); ("crops", VArr [VInt 0; VInt 28; VInt 0; VInt 28])].
(** data/cameras/fuji/s2pro.toml *)
Definition cam_118 : table :=
  [("make", VStr "FUJIFILM"); ("model", VStr "FinePixS2Pro"); ("clean_make", VStr "Fujifilm"); ("clean_model", VStr "FinePix S2Pro"); ("blackpoint", VInt 126); ("whitepoint", VInt 4095); ("color_matrix", VArr [VInt 12492; VInt (-4690); VInt (-1402); VInt (-7033); VInt 15423; VInt 1647; VInt (-1507); VInt 2111; VInt 7697]); ("color_pattern", VStr "GBRG"); ("crops", VArr [VInt 32; VInt 32; VInt 32; VInt 32]); ("hints", VArr [VStr "fuji_rotation_alt"])].
(** data/cameras/fuji/s3pro.toml *)
Definition cam_119 : table :=
  [("make", VStr "FUJIFILM"); ("model", VStr "FinePix S3Pro"); ("clean_make", VStr "Fujifilm"); ("clean_model", VStr "FinePix S3Pro"); ("blackpoint", VInt 0); ("whitepoint", VInt 16383); ("color_matrix", VArr [VInt 11807; VInt (-4612); VInt (-1294); VInt (-8927); VInt 16968; VInt 1988; VInt (-2120); VInt 2741; VInt 8006]); ("color_pattern", VStr "GBRG"); ("crops", VArr [VInt 2; VInt 32; VInt 2; VInt 32]); ("hints", VArr [VStr "fuji_rotation_alt"])].
(** data/cameras/fuji/s5000.toml *)
Definition cam_120 : table :=
  [("make", VStr "FUJIFILM"); ("model", VStr "FinePix S5000"); ("clean_make", VStr "Fujifilm"); ("clean_model", VStr "FinePix S5000"); ("blackpoint", VInt 0); ("whitepoint", VInt 15866); ("color_matrix", VArr [VInt 8754; VInt (-2732); VInt (-1019); VInt (-7204); VInt 15069; VInt 2276; VInt (-1702); VInt 2334; VInt 6982]); ("color_pattern", VStr "GBRG"); ("crops", VArr [VInt 4; VInt 24; VInt 4; VInt 24]); ("hints", VArr [VStr "fuji_rotation"])].
(** data/cameras/fuji/s5600.toml *)
Definition cam_121 : table :=
  [("make", VStr "FUJIFILM"); ("model", VStr "FinePix S5600"); ("clean_make", VStr "Fujifilm"); ("clean_model", VStr "FinePix S5600"); ("blackpoint", VInt 0); ("whitepoint", VInt 15564); ("color_matrix", VArr [VInt 9636; VInt (-2804); VInt (-988); VInt (-7442); VInt 15040; VInt 2589; VInt (-1803); VInt 2311; VInt 8621]); ("color_pattern", VStr "GBRG"); ("crops", VArr [VInt 0; VInt 30; VInt 0; VInt 30]); ("hints", VArr [VStr "fuji_rotation"])].
(** data/cameras/fuji/s5pro.toml *)
Definition cam_122 : table :=
  [("make", VStr "FUJIFILM"); ("model", VStr "FinePix S5Pro"); ("clean_make", VStr "Fujifilm"); ("clean_model", VStr "FinePix S5Pro"); ("blackpoint", VInt 0); ("whitepoint", VInt 16383); ("color_matrix", VArr [VInt 12300; VInt (-5110); VInt (-1304); VInt (-9117); VInt 17143; VInt 1998; VInt (-1947); VInt 2448; VInt 8100]); ("color_pattern", VStr "GBRG"); ("crops", VArr [VInt 2; VInt 32; VInt 2; VInt 32]); ("hints", VArr [VStr "fuji_rotation_alt"])].
(** data/cameras/fuji/s6500fd.toml *)
Definition cam_123 : table :=
  [("make", VStr "FUJIFILM"); ("model", VStr "FinePix S6500fd"); ("clean_make", VStr "Fujifilm"); ("clean_model", VStr "FinePix S6500fd"); ("blackpoint", VInt 0); ("whitepoint", VInt 15564); ("color_matrix", VArr [VInt 12628; VInt (-4887); VInt (-1401); VInt (-6861); VInt 14996; VInt 1962; VInt (-2198); VInt 2782; VInt 7091]); ("color_pattern", VStr "GBRG"); ("crops", VArr [VInt 0; VInt 64; VInt 0; VInt 64]); ("hints", VArr [VStr "fuji_rotation_alt"])].
(** data/cameras/fuji/s9500.toml *)
Definition cam_124 : table :=
  [("make", VStr "FUJIFILM"); ("model", VStr "FinePix S9500"); ("clean_make", VStr "Fujifilm"); ("clean_model", VStr "FinePix S9500"); ("blackpoint", VInt 0); ("whitepoint", VInt 16115); ("color_matrix", VArr [VInt 10491; VInt (-3423); VInt (-1145); VInt (-7385); VInt 15027; VInt 2538; VInt (-1809); VInt 2275; VInt 8692]); ("color_pattern", VStr "GBRG"); ("crops", VArr [VInt 0; VInt 32; VInt 0; VInt 32]); ("hints", VArr [VStr "fuji_rotation"])].
(** data/cameras/fuji/s9600.toml *)
Definition cam_125 : table :=
  [("make", VStr "FUJIFILM"); ("model", VStr "FinePix S9600"); ("clean_make", VStr "Fujifilm"); ("clean_model", VStr "FinePix S9600"); ("blackpoint", VInt 0); ("whitepoint", VInt 15564); ("color_matrix", VArr [VInt 12343; VInt (-4515); VInt (-1285); VInt (-7165); VInt 14899; VInt 2435; VInt (-1895); VInt 2496; VInt 8800]); ("color_pattern", VStr "GBRG"); ("crops", VArr [VInt 0; VInt 32; VInt 0; VInt 32]); ("hints", VArr [VStr "fuji_rotation"])].
(** data/cameras/fuji/x-a1.toml *)
Definition cam_126 : table :=
  [("make", VStr "FUJIFILM"); ("model", VStr "X-A1"); ("clean_make", VStr "Fujifilm"); ("clean_model", VStr "X-A1"); ("blackpoint", VInt 256); ("whitepoint", VInt 4094); ("color_matrix", VArr [VInt 11086; VInt (-4555); VInt (-839); VInt (-3512); VInt 11310; VInt 2517; VInt (-815); VInt 1341; VInt 5940]); ("color_pattern", VStr "RGGB"); ("crops", VArr [VInt 0; VInt 168; VInt 0; VInt 0])].
(** data/cameras/fuji/x-a2.toml *)
Definition cam_127 : table :=
  [("make", VStr "FUJIFILM"); ("model", VStr "X-A2"); ("clean_make", VStr "Fujifilm"); ("clean_model", VStr "X-A2"); ("blackpoint", VInt 256); ("whitepoint", VInt 4094); ("color_matrix", VArr [VInt 10763; VInt (-4560); VInt (-917); VInt (-3346); VInt 11311; VInt 2322; VInt (-475); VInt 1135; VInt 5843]); ("color_pattern", VStr "RGGB"); ("crops", VArr [VInt 0; VInt 168; VInt 0; VInt 0])].
(** data/cameras/fuji/x-a3.toml *)
Definition cam_128 : table :=
  [("make", VStr "FUJIFILM"); ("model", VStr "X-A3"); ("clean_make", VStr "Fujifilm"); ("clean_model", VStr "X-A3"); ("blackpoint", VInt 1024); ("whitepoint", VInt 16383); ("color_matrix", VArr [VInt 12407; VInt (-5222); VInt (-1086); VInt (-2971); VInt 11116; VInt 2120; VInt (-294); VInt 1029; VInt 5284]); ("color_pattern", VStr "RGGB"); ("crops", VArr [VInt 0; VInt 0; VInt 0; VInt 0])].
(** data/cameras/fuji/x-e1.toml *)
Definition cam_129 : table :=
  [("make", VStr "FUJIFILM"); ("model", VStr "X-E1"); ("clean_make", VStr "Fujifilm"); ("clean_model", VStr "X-E1"); ("blackpoint", VInt 256); ("whitepoint", VInt 4094); ("color_matrix", VArr [VInt 10413; VInt (-3996); VInt (-993); VInt (-3721); VInt 11640; VInt 2361; VInt (-733); VInt 1540; VInt 6011]); ("color_pattern", VStr "GGRGGBGGBGGRBRGRBGGGBGGRGGRGGBRBGBRG"); ("crops", VArr [VInt 0; VInt 168; VInt 0; VInt 0])].
(** data/cameras/fuji/x-e2.toml *)
Definition cam_130 : table :=
  [("make", VStr "FUJIFILM"); ("model", VStr "X-E2"); ("clean_make", VStr "Fujifilm"); ("clean_model", VStr "X-E2"); ("blackpoint", VInt 1024); ("whitepoint", VInt 16383); ("color_matrix", VArr [VInt 8458; VInt (-2451); VInt (-855); VInt (-4597); VInt 12447; VInt 2407; VInt (-1475); VInt 2482; VInt 6526]); ("color_pattern", VStr "RBGBRGGGRGGBGGBGGRBRGRBGGGBGGRGGRGGB"); ("crops", VArr [VInt 0; VInt 52; VInt 0; VInt 4])].
(** data/cameras/fuji/x-e2s.toml *)
Definition cam_131 : table :=
  [("make", VStr "FUJIFILM"); ("model", VStr "X-E2S"); ("clean_make", VStr "Fujifilm"); ("clean_model", VStr "X-E2S"); ("blackpoint", VInt 1024); ("whitepoint", VInt 16383); ("color_matrix", VArr [VInt 11562; VInt (-5118); VInt (-961); VInt (-3022); VInt 11007; VInt 2311; VInt (-525); VInt 1569; VInt 6097]); ("color_pattern", VStr "RBGBRGGGRGGBGGBGGRBRGRBGGGBGGRGGRGGB"); ("crops", VArr [VInt 0; VInt 52; VInt 0; VInt 4])].
(** data/cameras/fuji/x-m1.toml *)
Definition cam_132 : table :=
  [("make", VStr "FUJIFILM"); ("model", VStr "X-M1"); ("clean_make", VStr "Fujifilm"); ("clean_model", VStr "X-M1"); ("blackpoint", VInt 256); ("whitepoint", VInt 4094); ("color_matrix", VArr [VInt 10413; VInt (-3996); VInt (-993); VInt (-3721); VInt 11640; VInt 2361; VInt (-733); VInt 1540; VInt 6011]); ("color_pattern", VStr "GGRGGBGGBGGRBRGRBGGGBGGRGGRGGBRBGBRG"); ("crops", VArr [VInt 0; VInt 168; VInt 0; VInt 0])].
(** data/cameras/fuji/x-pro1.toml *)
Definition cam_133 : table :=
  [("make", VStr "FUJIFILM"); ("model", VStr "X-Pro1"); ("clean_make", VStr "Fujifilm"); ("clean_model", VStr "X-Pro1"); ("blackpoint", VInt 256); ("whitepoint", VInt 4094); ("color_matrix", VArr [VInt 10413; VInt (-3996); VInt (-993); VInt (-3721); VInt 11640; VInt 2361; VInt (-733); VInt 1540; VInt 6011]); ("color_pattern", VStr "GGRGGBGGBGGRBRGRBGGGBGGRGGRGGBRBGBRG"); ("crops", VArr [VInt 0; VInt 168; VInt 0; VInt 0])].
(** data/cameras/fuji/x-pro2.toml *)
Definition cam_134 : table :=
  [("make", VStr "FUJIFILM"); ("model", VStr "X-Pro2"); ("clean_make", VStr "Fujifilm"); ("clean_model", VStr "X-Pro2"); ("blackpoint", VInt 1024); ("whitepoint", VInt 16383); ("color_matrix", VArr [VInt 11434; VInt (-4948); VInt (-1210); VInt (-3746); VInt 12042; VInt 1903; VInt (-666); VInt 1479; VInt 5235]); ("color_pattern", VStr "RBGBRGGGRGGBGGBGGRBRGRBGGGBGGRGGRGGB"); ("crops", VArr [VInt 0; VInt 128; VInt 0; VInt 0])].
(** data/cameras/fuji/x-s1.toml *)
Definition cam_135 : table :=
  [("make", VStr "FUJIFILM"); ("model", VStr "X-S1"); ("clean_make", VStr "Fujifilm"); ("clean_model", VStr "X-S1"); ("blackpoint", VInt 256); ("whitepoint", VInt 4000); ("color_matrix", VArr [VInt 13509; VInt (-6199); VInt (-1254); VInt (-4430); VInt 12733; VInt 1865; VInt (-331); VInt 1441; VInt 5022]); ("color_pattern", VStr "BGGR"); ("crops", VArr [VInt 0; VInt 48; VInt 0; VInt 48])].
(** data/cameras/fuji/x-t1.toml *)
Definition cam_136 : table :=
  [("make", VStr "FUJIFILM"); ("model", VStr "X-T1"); ("clean_make", VStr "Fujifilm"); ("clean_model", VStr "X-T1"); ("blackpoint", VInt 1024); ("whitepoint", VInt 16383); ("color_matrix", VArr [VInt 8458; VInt (-2451); VInt (-855); VInt (-4597); VInt 12447; VInt 2407; VInt (-1475); VInt 2482; VInt 6526]); ("color_pattern", VStr "RBGBRGGGRGGBGGBGGRBRGRBGGGBGGRGGRGGB"); ("crops", VArr [VInt 0; VInt 52; VInt 0; VInt 4])].
(** data/cameras/fuji/x-t10.toml *)
Definition cam_137 : table :=
  [("make", VStr "FUJIFILM"); ("model", VStr "X-T10"); ("clean_make", VStr "Fujifilm"); ("clean_model", VStr "X-T10"); ("blackpoint", VInt 1024); ("whitepoint", VInt 16383); ("color_matrix", VArr [VInt 8458; VInt (-2451); VInt (-855); VInt (-4597); VInt 12447; VInt 2407; VInt (-1475); VInt 2482; VInt 6526]); ("color_pattern", VStr "RBGBRGGGRGGBGGBGGRBRGRBGGGBGGRGGRGGB"); ("crops", VArr [VInt 0; VInt 52; VInt 0; VInt 4])].
(** data/cameras/fuji/x-t2.toml *)
Definition cam_138 : table :=
  [("make", VStr "FUJIFILM"); ("model", VStr "X-T2"); ("clean_make", VStr "Fujifilm"); ("clean_model", VStr "X-T2"); ("blackpoint", VInt 1024); ("whitepoint", VInt 16383); ("color_matrix", VArr [VInt 11434; VInt (-4948); VInt (-1210); VInt (-3746); VInt 12042; VInt 1903; VInt (-666); VInt 1479; VInt 5235]); ("color_pattern", VStr "RBGBRGGGRGGBGGBGGRBRGRBGGGBGGRGGRGGB"); ("crops", VArr [VInt 0; VInt 128; VInt 0; VInt 0])].
(** data/cameras/fuji/x-t20.toml *)
Definition cam_139 : table :=
  [("make", VStr "FUJIFILM"); ("model", VStr "X-T20"); ("clean_make", VStr "Fujifilm"); ("clean_model", VStr "X-T20"); ("blackpoint", VInt 1024); ("whitepoint", VInt 16383); ("color_matrix", VArr [VInt 11434; VInt (-4948); VInt (-1210); VInt (-3746); VInt 12042; VInt 1903; VInt (-666); VInt 1479; VInt 5235]); ("color_pattern", VStr "RBGBRGGGRGGBGGBGGRBRGRBGGGBGGRGGRGGB"); ("crops", VArr [VInt 0; VInt 128; VInt 0; VInt 0])].
(** data/cameras/fuji/x10.toml *)
Definition cam_140 : table :=
  [("make", VStr "FUJIFILM"); ("model", VStr "X10"); ("clean_make", VStr "Fujifilm"); ("clean_model", VStr "FinePix X10"); ("blackpoint", VInt 256); ("whitepoint", VInt 4000); ("color_matrix", VArr [VInt 13509; VInt (-6199); VInt (-1254); VInt (-4430); VInt 12733; VInt 1865; VInt (-331); VInt 1441; VInt 5022]); ("color_pattern", VStr "BGGR"); ("crops", VArr [VInt 0; VInt 48; VInt 0; VInt 48])].
(** data/cameras/fuji/x100.toml *)
Definition cam_141 : table :=
  [("make", VStr "FUJIFILM"); ("model", VStr "FinePix X100"); ("clean_make", VStr "Fujifilm"); ("clean_model", VStr "FinePix X100"); ("blackpoint", VInt 254); ("whitepoint", VInt 4000); ("color_matrix", VArr [VInt 12161; VInt (-4457); VInt (-1069); VInt (-5034); VInt 12874; VInt 2400; VInt (-795); VInt 1724; VInt 6904]); ("color_pattern", VStr "RGGB"); ("crops", VArr [VInt 1; VInt 73; VInt 1; VInt 73])].
(** data/cameras/fuji/x100f.toml *)
Definition cam_142 : table :=
  [("make", VStr "FUJIFILM"); ("model", VStr "X100F"); ("clean_make", VStr "Fujifilm"); ("clean_model", VStr "X100F"); ("blackpoint", VInt 1024); ("whitepoint", VInt 16383); ("color_matrix", VArr [VInt 11434; VInt (-4948); VInt (-1210); VInt (-3746); VInt 12042; VInt 1903; VInt (-666); VInt 1479; VInt 5235]); ("color_pattern", VStr "RBGBRGGGRGGBGGBGGRBRGRBGGGBGGRGGRGGB"); ("crops", VArr [VInt 0; VInt 128; VInt 0; VInt 0])].
(** data/cameras/fuji/x100s.toml *)
Definition cam_143 : table :=
  [("make", VStr "FUJIFILM"); ("model", VStr "X100S"); ("clean_make", VStr "Fujifilm"); ("clean_model", VStr "X100S"); ("blackpoint", VInt 1024); ("whitepoint", VInt 16383); ("color_matrix", VArr [VInt 10592; VInt (-4262); VInt (-1008); VInt (-3514); VInt 11355; VInt 2465; VInt (-870); VInt 2025; VInt 6386]); ("color_pattern", VStr "RBGBRGGGRGGBGGBGGRBRGRBGGGBGGRGGRGGB"); ("crops", VArr [VInt 0; VInt 52; VInt 0; VInt 4])].
(** data/cameras/fuji/x100t.toml *)
Definition cam_144 : table :=
  [("make", VStr "FUJIFILM"); ("model", VStr "X100T"); ("clean_make", VStr "Fujifilm"); ("clean_model", VStr "X100T"); ("blackpoint", VInt 1024); ("whitepoint", VInt 16383); ("color_matrix", VArr [VInt 10592; VInt (-4262); VInt (-1008); VInt (-3514); VInt 11355; VInt 2465; VInt (-870); VInt 2025; VInt 6386]); ("color_pattern", VStr "RBGBRGGGRGGBGGBGGRBRGRBGGGBGGRGGRGGB"); ("crops", VArr [VInt 0; VInt 52; VInt 0; VInt 4])].
(** data/cameras/fuji/x20.toml *)
Definition cam_145 : table :=
  [("make", VStr "FUJIFILM"); ("model", VStr "X20"); ("clean_make", VStr "Fujifilm"); ("clean_model", VStr "X20"); ("blackpoint", VInt 257); ("whitepoint", VInt 4094); ("color_matrix", VArr [VInt 11768; VInt (-4971); VInt (-1133); VInt (-4904); VInt 12927; VInt 2183; VInt (-480); VInt 1723; VInt 4605]); ("color_pattern", VStr "GBGGRGRGRBGBGBGGRGGRGGBGBGBRGRGRGGBG"); ("crops", VArr [VInt 0; VInt 64; VInt 0; VInt 0])].
(** data/cameras/fuji/x30.toml *)
Definition cam_146 : table :=
  [("make", VStr "FUJIFILM"); ("model", VStr "X30"); ("clean_make", VStr "Fujifilm"); ("clean_model", VStr "X30"); ("blackpoint", VInt 257); ("whitepoint", VInt 4094); ("color_matrix", VArr [VInt 12328; VInt (-5256); VInt (-1144); VInt (-4469); VInt 12927; VInt 1675; VInt (-87); VInt 1291; VInt 4351]); ("color_pattern", VStr "GBGGRGRGRBGBGBGGRGGRGGBGBGBRGRGRGGBG"); ("crops", VArr [VInt 0; VInt 64; VInt 0; VInt 0])].
(** data/cameras/fuji/x70.toml *)
Definition cam_147 : table :=
  [("make", VStr "FUJIFILM"); ("model", VStr "X70"); ("clean_make", VStr "Fujifilm"); ("clean_model", VStr "X70"); ("blackpoint", VInt 1024); ("whitepoint", VInt 16383); ("color_matrix", VArr [VInt 10450; VInt (-4329); VInt (-878); VInt (-3217); VInt 11105; VInt 2421; VInt (-752); VInt 1758; VInt 6519]); ("color_pattern", VStr "RBGBRGGGRGGBGGBGGRBRGRBGGGBGGRGGRGGB"); ("crops", VArr [VInt 0; VInt 52; VInt 0; VInt 4])].
(** data/cameras/fuji/xf1.toml *)
Definition cam_148 : table :=
  [("make", VStr "FUJIFILM"); ("model", VStr "XF1"); ("clean_make", VStr "Fujifilm"); ("clean_model", VStr "XF1"); ("blackpoint", VInt 257); ("whitepoint", VInt 4000); ("color_matrix", VArr [VInt 13509; VInt (-6199); VInt (-1254); VInt (-4430); VInt 12733; VInt 1865; VInt (-331); VInt 1441; VInt 5022]); ("color_pattern", VStr "BGGR"); ("crops", VArr [VInt 0; VInt 48; VInt 0; VInt 48])].
(** data/cameras/fuji/xq1.toml *)
Definition cam_149 : table :=
  [("make", VStr "FUJIFILM"); ("model", VStr "XQ1"); ("clean_make", VStr "Fujifilm"); ("clean_model", VStr "XQ1"); ("blackpoint", VInt 257); ("whitepoint", VInt 4094); ("color_matrix", VArr [VInt 9252; VInt (-2704); VInt (-1064); VInt (-5893); VInt 14265; VInt 1717; VInt (-1101); VInt 2341; VInt 4349]); ("color_pattern", VStr "GBGGRGRGRBGBGBGGRGGRGGBGBGBRGRGRGGBG"); ("crops", VArr [VInt 0; VInt 64; VInt 0; VInt 0])].
(** data/cameras/fuji/xq2.toml *)
Definition cam_150 : table :=
  [("make", VStr "FUJIFILM"); ("model", VStr "XQ2"); ("clean_make", VStr "Fujifilm"); ("clean_model", VStr "XQ2"); ("blackpoint", VInt 257); ("whitepoint", VInt 4094); ("color_matrix", VArr [VInt 9252; VInt (-2704); VInt (-1064); VInt (-5893); VInt 14265; VInt 1717; VInt (-1101); VInt 2341; VInt 4349]); ("color_pattern", VStr "GBGGRGRGRBGBGBGGRGGRGGBGBGBRGRGRGGBG"); ("crops", VArr [VInt 0; VInt 64; VInt 0; VInt 0])].
(** data/cameras/hasselblad/cf132.toml *)
Definition cam_151 : table :=
  [("make", VStr "Hasselblad"); ("model", VStr "Flash Sync"); ("clean_make", VStr "Hasselblad"); ("clean_model", VStr "CF132"); ("blackpoint", VInt 0); ("whitepoint", VInt 62914); ("color_matrix", VArr [VInt 8519; VInt (-3260); VInt (-280); VInt (-5081); VInt 13459; VInt 1738; VInt (-1449); VInt 2960; VInt 7809]); ("color_pattern", VStr "RGGB"); ("crops", VArr [VInt 0; VInt 0; VInt 0; VInt 0])].
(** data/cameras/hasselblad/cfv.toml *)
Definition cam_152 : table :=
  [("make", VStr "Hasselblad"); ("model", VStr "Hasselblad 500 mech."); ("clean_make", VStr "Hasselblad"); ("clean_model", VStr "CFV"); ("blackpoint", VInt 0); ("whitepoint", VInt 31456); ("color_matrix", VArr [VInt 8519; VInt (-3260); VInt (-280); VInt (-5081); VInt 13459; VInt 1738; VInt (-1449); VInt 2960; VInt 7809]); ("color_pattern", VStr "RGGB"); ("crops", VArr [VInt 0; VInt 0; VInt 0; VInt 0])].
(** data/cameras/hasselblad/h3d-39ii.toml *)
Definition cam_153 : table :=
  [("make", VStr "Hasselblad"); ("model", VStr "Hasselblad H3D"); ("clean_make", VStr "Hasselblad"); ("clean_model", VStr "H3D"); ("blackpoint", VInt 0); ("whitepoint", VInt 31456); ("color_matrix", VArr [VInt 3857; VInt 452; VInt (-46); VInt (-6008); VInt 14477; VInt 1596; VInt (-2627); VInt 4481; VInt 5718]); ("color_pattern", VStr "RGGB"); ("crops", VArr [VInt 0; VInt 0; VInt 0; VInt 0])].
(** data/cameras/kodak/dcs1.toml *)
Definition cam_154 : table :=
  [("make", VStr "KODAK"); ("model", VStr "EOSDCS1B        FILE VERSION 3"); ("clean_make", VStr "Kodak"); ("clean_model", VStr "EOS DCS 1"); ("blackpoint", VInt 19); ("whitepoint", VInt 7638); ("color_matrix", VArr [VInt 10592; VInt (-2206); VInt (-967); VInt (-1944); VInt 11685; VInt 230; VInt 2206; VInt 670; VInt 1273]); ("color_pattern", VStr "GRBG"); ("crops", VArr [VInt 3; VInt 0; VInt 3; VInt 0])].
(** data/cameras/kodak/dcs460d.toml *)
Definition cam_155 : table :=
  [("make", VStr "KODAK"); ("model", VStr "DCS460D         FILE VERSION 3"); ("clean_make", VStr "Kodak"); ("clean_model", VStr "DCS460D"); ("blackpoint", VInt 7); ("whitepoint", VInt 6664); ("color_matrix", VArr [VInt 10592; VInt (-2206); VInt (-967); VInt (-1944); VInt 11685; VInt 230; VInt 2206; VInt 670; VInt 1273]); ("color_pattern", VStr "GRBG"); ("crops", VArr [VInt 0; VInt 3; VInt 0; VInt 3])].
(** data/cameras/kodak/dcs560c.toml *)
Definition cam_156 : table :=
  [("make", VStr "Kodak"); ("model", VStr "DCS560C"); ("clean_make", VStr "Kodak"); ("clean_model", VStr "DCS560C"); ("blackpoint", VInt 0); ("whitepoint", VInt 4095); ("color_matrix", VArr [VInt 20482; VInt (-7172); VInt (-3125); VInt (-1033); VInt 10410; VInt (-285); VInt 2542; VInt 226; VInt 3136]); ("color_pattern", VStr "GRBG"); ("crops", VArr [VInt 0; VInt 0; VInt 0; VInt 0]); ("hints", VArr [VStr "linearization"])].
(** data/cameras/kodak/dcs760c.toml *)
Definition cam_157 : table :=
  [("make", VStr "Kodak"); ("model", VStr "DCS760C"); ("clean_make", VStr "Kodak"); ("clean_model", VStr "DCS760C"); ("blackpoint", VInt 0); ("whitepoint", VInt 3500); ("color_matrix", VArr [VInt 16623; VInt (-6309); VInt (-1411); VInt (-4344); VInt 13923; VInt 323; VInt 2285; VInt 274; VInt 2926]); ("color_pattern", VStr "GRBG"); ("crops", VArr [VInt 0; VInt 0; VInt 0; VInt 0])].
(** data/cameras/kodak/dcs_pro.toml *)
Definition cam_158 : table :=
  [("make", VStr "Kodak"); ("model", VStr "DCS Pro SLR/n"); ("clean_make", VStr "Kodak"); ("clean_model", VStr "DCS Pro SLR/n"); ("blackpoint", VInt 0); ("whitepoint", VInt 3700); ("color_matrix", VArr [VInt 5494; VInt 2393; VInt (-232); VInt (-6427); VInt 13850; VInt 2846; VInt (-1876); VInt 3997; VInt 5445]); ("color_pattern", VStr "GRBG"); ("crops", VArr [VInt 0; VInt 0; VInt 0; VInt 0])].
(** data/cameras/kodak/p880.toml *)
Definition cam_159 : table :=
  [("make", VStr "EASTMAN KODAK COMPANY"); ("model", VStr "KODAK P880 ZOOM DIGITAL CAMERA"); ("clean_make", VStr "Kodak"); ("clean_model", VStr "P880"); ("blackpoint", VInt 0); ("whitepoint", VInt 4095); ("color_matrix", VArr [VInt 12805; VInt (-4662); VInt (-1376); VInt (-7480); VInt 15267; VInt 2360; VInt (-1626); VInt 2194; VInt 7904]); ("color_pattern", VStr "BGGR"); ("crops", VArr [VInt 0; VInt 0; VInt 0; VInt 0])].
(** data/cameras/kodak/z1015.toml *)
Definition cam_160 : table :=
  [("make", VStr "EASTMAN KODAK COMPANY"); ("model", VStr "KODAK EASYSHARE Z1015 IS DIGITAL CAMERA"); ("clean_make", VStr "Kodak"); ("clean_model", VStr "Z1015 IS"); ("blackpoint", VInt 0); ("whitepoint", VInt 4095); ("color_matrix", VArr [VInt 11265; VInt (-4286); VInt (-992); VInt (-4694); VInt 12343; VInt 2647; VInt (-1090); VInt 1523; VInt 5447]); ("color_pattern", VStr "BGGR"); ("crops", VArr [VInt 0; VInt 0; VInt 0; VInt 0]); ("hints", VArr [VStr "easyshare_offset_hack"])].
(** data/cameras/leaf/aptus22.toml *)
Definition cam_161 : table :=
  [("make", VStr "Creo/Leaf"); ("model", VStr "Leaf Aptus 22"); ("clean_make", VStr "Leaf"); ("clean_model", VStr "Aptus 22"); ("blackpoint", VInt 0); ("whitepoint", VInt 16191); ("color_matrix", VArr [VInt 8236; VInt 1746; VInt (-1314); VInt (-8251); VInt 15953; VInt 2428; VInt (-3673); VInt 5786; VInt 5771]); ("color_pattern", VStr "RGGB"); ("crops", VArr [VInt 0; VInt 0; VInt 0; VInt 0])].
(** data/cameras/leaf/aptus75.toml *)
Definition cam_162 : table :=
  [("make", VStr "Leaf"); ("model", VStr "Leaf Aptus 75"); ("clean_make", VStr "Leaf"); ("clean_model", VStr "Aptus 75"); ("blackpoint", VInt 0); ("whitepoint", VInt 16191); ("color_matrix", VArr [VInt 7914; VInt 1414; VInt (-1190); VInt (-8777); VInt 16582; VInt 2280; VInt (-2811); VInt 4605; VInt 5562]); ("color_pattern", VStr "GBRG"); ("crops", VArr [VInt 0; VInt 0; VInt 0; VInt 0])].
(** data/cameras/leaf/aptusII-10.toml *)
Definition cam_163 : table :=
  [("make", VStr "Leaf"); ("model", VStr "Leaf Aptus-II 10"); ("clean_make", VStr "Leaf"); ("clean_model", VStr "Leaf Aptus-II 10"); ("blackpoint", VInt 0); ("whitepoint", VInt 15000); ("color_matrix", VArr [VInt 7527; VInt 1285; VInt (-166); VInt (-6929); VInt 14061; VInt 3176; VInt (-1995); VInt 3747; VInt 6077]); ("color_pattern", VStr "RGGB"); ("crops", VArr [VInt 0; VInt 0; VInt 0; VInt 0])].
(** data/cameras/leaf/aptusII-10R.toml *)
Definition cam_164 : table :=
  [("make", VStr "Leaf"); ("model", VStr "Leaf Aptus-II 10R"); ("clean_make", VStr "Leaf"); ("clean_model", VStr "Leaf Aptus-II 10R"); ("blackpoint", VInt 0); ("whitepoint", VInt 15000); ("color_matrix", VArr [VInt 7527; VInt 1285; VInt (-166); VInt (-6929); VInt 14061; VInt 3176; VInt (-1995); VInt 3747; VInt 6077]); ("color_pattern", VStr "GBRG"); ("crops", VArr [VInt 0; VInt 0; VInt 0; VInt 0])].
(** data/cameras/leaf/aptusII-12.toml *)
Definition cam_165 : table :=
  [("make", VStr "Leaf"); ("model", VStr "Leaf Aptus-II 12"); ("clean_make", VStr "Leaf"); ("clean_model", VStr "Leaf Aptus-II 12"); ("blackpoint", VInt 0); ("whitepoint", VInt 15000); ("color_matrix", VArr [VInt 7527; VInt 1285; VInt (-166); VInt (-6929); VInt 14061; VInt 3176; VInt (-1995); VInt 3747; VInt 6077]); ("color_pattern", VStr "RGGB"); ("crops", VArr [VInt 0; VInt 0; VInt 0; VInt 0]); ("hints", VArr [VStr "interlaced"])].
(** data/cameras/leaf/aptusII-5.toml *)
Definition cam_166 : table :=
  [("make", VStr "Leaf"); ("model", VStr "Leaf Aptus-II 5"); ("clean_make", VStr "Leaf"); ("clean_model", VStr "Aptus-II 5"); ("blackpoint", VInt 0); ("whitepoint", VInt 15000); ("color_matrix", VArr [VInt 1846; VInt 7955; VInt (-1222); VInt (-12994); VInt 19563; VInt 3596; VInt (-2035); VInt 3340; VInt 5136]); ("color_pattern", VStr "GRBG"); ("crops", VArr [VInt 0; VInt 0; VInt 0; VInt 0])].
(** data/cameras/leaf/aptusII-7.toml *)
Definition cam_167 : table :=
  [("make", VStr "Leaf"); ("model", VStr "Leaf AFi-II 7"); ("clean_make", VStr "Leaf"); ("clean_model", VStr "AFi-II 7"); ("blackpoint", VInt 0); ("whitepoint", VInt 15000); ("color_matrix", VArr [VInt 7691; VInt (-108); VInt (-339); VInt (-6185); VInt 13627; VInt 2833; VInt (-2046); VInt 3899; VInt 5952]); ("color_pattern", VStr "RGGB"); ("crops", VArr [VInt 0; VInt 0; VInt 0; VInt 0])].
(** data/cameras/leaf/aptusII-8.toml *)
Definition cam_168 : table :=
  [("make", VStr "Leaf"); ("model", VStr "Leaf Aptus-II 8"); ("clean_make", VStr "Leaf"); ("clean_model", VStr "Aptus-II 8"); ("blackpoint", VInt 0); ("whitepoint", VInt 15000); ("color_matrix", VArr [VInt 6355; VInt 1085; VInt (-140); VInt (-6929); VInt 14061; VInt 3176; VInt (-2008); VInt 3771; VInt 6117]); ("color_pattern", VStr "GBRG"); ("crops", VArr [VInt 0; VInt 0; VInt 0; VInt 0])].
(** data/cameras/leaf/credo40.toml *)
Definition cam_169 : table :=
  [("make", VStr "Leaf"); ("model", VStr "Credo 40"); ("clean_make", VStr "Leaf"); ("clean_model", VStr "Credo 40"); ("blackpoint", VInt 0); ("whitepoint", VInt 16383); ("color_matrix", VArr [VInt 8035; VInt 435; VInt (-962); VInt (-6001); VInt 13872; VInt 2320; VInt (-1159); VInt 3065; VInt 5434]); ("color_pattern", VStr "RGGB"); ("crops", VArr [VInt 6; VInt 16; VInt 46; VInt 36])].
(** data/cameras/leaf/credo60.toml *)
Definition cam_170 : table :=
  [("make", VStr "Leaf"); ("model", VStr "Credo 60"); ("clean_make", VStr "Leaf"); ("clean_model", VStr "Credo 60"); ("blackpoint", VInt 0); ("whitepoint", VInt 16383); ("color_matrix", VArr [VInt 8035; VInt 435; VInt (-962); VInt (-6001); VInt 13872; VInt 2320; VInt (-1159); VInt 3065; VInt 5434]); ("color_pattern", VStr "RGGB"); ("crops", VArr [VInt 6; VInt 16; VInt 46; VInt 36])].
(** data/cameras/leaf/credo80.toml *)
Definition cam_171 : table :=
  [("make", VStr "Leaf"); ("model", VStr "Credo 80"); ("clean_make", VStr "Leaf"); ("clean_model", VStr "Credo 80"); ("blackpoint", VInt 0); ("whitepoint", VInt 16383); ("color_matrix", VArr [VInt 6294; VInt 686; VInt (-712); VInt (-5435); VInt 13417; VInt 2211; VInt (-1006); VInt 2435; VInt 5042]); ("color_pattern", VStr "RGGB"); ("crops", VArr [VInt 8; VInt 16; VInt 48; VInt 36])].
(** data/cameras/leica/digilux2.toml *)
Definition cam_172 : table :=
  [("make", VStr "LEICA"); ("model", VStr "DIGILUX 2"); ("clean_make", VStr "Leica"); ("clean_model", VStr "Digilux 2"); ("blackpoint", VInt 0); ("whitepoint", VInt 4095); ("color_matrix", VArr [VInt 11340; VInt (-4069); VInt (-1275); VInt (-7555); VInt 15266; VInt 2448; VInt (-2960); VInt 3426; VInt 7685]); ("color_pattern", VStr "RGGB"); ("modes", VArr [VTable [("mode", VStr "4:3"); ("crops", VArr [VInt 0; VInt 0; VInt 0; VInt 0])]])].
(** data/cameras/leica/dlux3.toml *)
Definition cam_173 : table :=
  [("make", VStr "LEICA"); ("model", VStr "D-LUX 3"); ("clean_make", VStr "Leica"); ("clean_model", VStr "D-LUX 3"); ("blackpoint", VInt 0); ("whitepoint", VInt 3986); ("color_matrix", VArr [VInt 8048; VInt (-2810); VInt (-623); VInt (-6450); VInt 13519; VInt 3272; VInt (-1700); VInt 2146; VInt 7049]); ("color_pattern", VStr "BGGR"); ("modes", VArr [VTable [("mode", VStr "16:9"); ("crops", VArr [VInt 17; VInt 65; VInt 24; VInt 17])]])].
(** data/cameras/leica/vlux1.toml *)
Definition cam_174 : table :=
  [("make", VStr "LEICA"); ("model", VStr "V-LUX 1"); ("clean_make", VStr "Leica"); ("clean_model", VStr "V-LUX 1"); ("blackpoint", VInt 0); ("whitepoint", VInt 3986); ("color_matrix", VArr [VInt 7906; VInt (-2709); VInt (-594); VInt (-6231); VInt 13351; VInt 3220; VInt (-1922); VInt 2631; VInt 6537]); ("color_pattern", VStr "BGGR"); ("modes", VArr [VTable [("mode", VStr "4:3"); ("crops", VArr [VInt 0; VInt 14; VInt 3; VInt 4])]; VTable [("mode", VStr "3:2"); ("crops", VArr [VInt 0; VInt 14; VInt 3; VInt 4])]])].
(** data/cameras/leica/vlux4.toml *)
Definition cam_175 : table :=
  [("make", VStr "LEICA"); ("model", VStr "V-LUX 4"); ("clean_make", VStr "LEICA"); ("clean_model", VStr "V-LUX 4"); ("blackpoint", VInt 143); ("whitepoint", VInt 3956); ("color_matrix", VArr [VInt 8112; VInt (-2563); VInt (-740); VInt (-3730); VInt 11784; VInt 2197; VInt (-941); VInt 2075; VInt 4933]); ("color_pattern", VStr "GBRG"); ("modes", VArr [VTable [("mode", VStr "4:3"); ("crops", VArr [VInt 0; VInt 128; VInt 3; VInt 0])]])].
(** data/cameras/mamiya/zd.toml *)
Definition cam_176 : table :=
  [("make", VStr "Mamiya-OP Co.,Ltd."); ("model", VStr "MAMIYA ZD"); ("clean_make", VStr "Mamiya"); ("clean_model", VStr "ZD"); ("blackpoint", VInt 0); ("whitepoint", VInt 4000); ("color_matrix", VArr [VInt 7645; VInt 2579; VInt (-1363); VInt (-8689); VInt 16717; VInt 2015; VInt (-3712); VInt 5941; VInt 5961]); ("color_pattern", VStr "RGGB"); ("crops", VArr [VInt 0; VInt 0; VInt 0; VInt 0])].
(** data/cameras/minolta/5.toml *)
Definition cam_177 : table :=
  [("make", VStr "Minolta Co., Ltd."); ("model", VStr "DiMAGE 5"); ("clean_make", VStr "Minolta"); ("clean_model", VStr "DiMAGE 5"); ("blackpoint", VInt 0); ("whitepoint", VInt 3965); ("color_matrix", VArr [VInt 8983; VInt (-2942); VInt (-963); VInt (-6556); VInt 14476; VInt 2237; VInt (-2426); VInt 2887; VInt 8014]); ("color_pattern", VStr "RGGB"); ("crops", VArr [VInt 0; VInt 0; VInt 0; VInt 0])].
(** data/cameras/minolta/5d.toml *)
Definition cam_178 : table :=
  [("make", VStr "KONICA MINOLTA"); ("model", VStr "DYNAX 5D"); ("clean_make", VStr "Minolta"); ("clean_model", VStr "Dynax 5D"); ("blackpoint", VInt 0); ("whitepoint", VInt 4095); ("color_matrix", VArr [VInt 10284; VInt (-3283); VInt (-1086); VInt (-7957); VInt 15762; VInt 2316; VInt (-829); VInt 882; VInt 6644]); ("color_pattern", VStr "RGGB"); ("crops", VArr [VInt 0; VInt 0; VInt 0; VInt 0])].
(** data/cameras/minolta/7.toml *)
Definition cam_179 : table :=
  [("make", VStr "Minolta Co., Ltd."); ("model", VStr "DiMAGE 7"); ("clean_make", VStr "Minolta"); ("clean_model", VStr "DiMAGE 7"); ("blackpoint", VInt 0); ("whitepoint", VInt 3965); ("color_matrix", VArr [VInt 9144; VInt (-2777); VInt (-998); VInt (-6676); VInt 14556; VInt 2281; VInt (-2470); VInt 3019; VInt 7744]); ("color_pattern", VStr "RGGB"); ("crops", VArr [VInt 0; VInt 0; VInt 0; VInt 0])].
(** data/cameras/minolta/7d.toml *)
Definition cam_180 : table :=
  [("make", VStr "KONICA MINOLTA"); ("model", VStr "DYNAX 7D"); ("clean_make", VStr "Minolta"); ("clean_model", VStr "Dynax 7D"); ("blackpoint", VInt 0); ("whitepoint", VInt 4095); ("color_matrix", VArr [VInt 10239; VInt (-3104); VInt (-1099); VInt (-8037); VInt 15727; VInt 2451; VInt (-927); VInt 925; VInt 6871]); ("color_pattern", VStr "RGGB"); ("crops", VArr [VInt 0; VInt 0; VInt 0; VInt 0])].
(** data/cameras/minolta/7hi.toml *)
Definition cam_181 : table :=
  [("make", VStr "Minolta Co., Ltd."); ("model", VStr "DiMAGE 7Hi"); ("clean_make", VStr "Minolta"); ("clean_model", VStr "DiMAGE 7Hi"); ("blackpoint", VInt 0); ("whitepoint", VInt 3965); ("color_matrix", VArr [VInt 11368; VInt (-3894); VInt (-1242); VInt (-6521); VInt 14358; VInt 2339; VInt (-2475); VInt 3056; VInt 7285]); ("color_pattern", VStr "RGGB"); ("crops", VArr [VInt 0; VInt 0; VInt 0; VInt 0])].
(** data/cameras/minolta/7i.toml *)
Definition cam_182 : table :=
  [("make", VStr "Minolta Co., Ltd."); ("model", VStr "DiMAGE 7i"); ("clean_make", VStr "Minolta"); ("clean_model", VStr "DiMAGE 7i"); ("blackpoint", VInt 0); ("whitepoint", VInt 3965); ("color_matrix", VArr [VInt 10880; VInt (-3638); VInt (-1186); VInt (-6496); VInt 14313; VInt 2364; VInt (-2456); VInt 3092; VInt 7485]); ("color_pattern", VStr "RGGB"); ("crops", VArr [VInt 0; VInt 0; VInt 0; VInt 0])].
(** data/cameras/minolta/a1.toml *)
Definition cam_183 : table :=
  [("make", VStr "Minolta Co., Ltd."); ("model", VStr "DiMAGE A1"); ("clean_make", VStr "Minolta"); ("clean_model", VStr "DiMAGE A1"); ("blackpoint", VInt 0); ("whitepoint", VInt 3965); ("color_matrix", VArr [VInt 9274; VInt (-2547); VInt (-1167); VInt (-8220); VInt 16323; VInt 1943; VInt (-2273); VInt 2720; VInt 8340]); ("color_pattern", VStr "RGGB"); ("crops", VArr [VInt 0; VInt 0; VInt 0; VInt 0])].
(** data/cameras/minolta/a2.toml *)
Definition cam_184 : table :=
  [("make", VStr "Konica Minolta Camera, Inc."); ("model", VStr "DiMAGE A2"); ("clean_make", VStr "Minolta"); ("clean_model", VStr "DiMAGE A2"); ("blackpoint", VInt 0); ("whitepoint", VInt 3965); ("color_matrix", VArr [VInt 9097; VInt (-2726); VInt (-1053); VInt (-8073); VInt 15506; VInt 2762; VInt (-966); VInt 981; VInt 7763]); ("color_pattern", VStr "RGGB"); ("crops", VArr [VInt 0; VInt 0; VInt 0; VInt 0])].
(** data/cameras/minolta/a200.toml *)
Definition cam_185 : table :=
  [("make", VStr "KONICA MINOLTA"); ("model", VStr "DiMAGE A200"); ("clean_make", VStr "Minolta"); ("clean_model", VStr "DiMAGE A200"); ("blackpoint", VInt 0); ("whitepoint", VInt 3965); ("color_matrix", VArr [VInt 8560; VInt (-2487); VInt (-986); VInt (-8112); VInt 15535; VInt 2771; VInt (-1209); VInt 1324; VInt 7743]); ("color_pattern", VStr "GBRG"); ("crops", VArr [VInt 0; VInt 0; VInt 0; VInt 0]); ("hints", VArr [VStr "swapped_wb"])].
(** data/cameras/nikon/1aw1.toml *)
Definition cam_186 : table :=
  [("make", VStr "NIKON CORPORATION"); ("model", VStr "NIKON 1 AW1"); ("clean_make", VStr "Nikon"); ("clean_model", VStr "1 AW1"); ("color_matrix", VArr [VInt 6588; VInt (-1305); VInt (-693); VInt (-3277); VInt 10987; VInt 2634; VInt (-355); VInt 2016; VInt 5106]); ("color_pattern", VStr "RGGB"); ("crops", VArr [VInt 0; VInt 0; VInt 0; VInt 0]); ("modes", VArr [VTable [("mode", VStr "12bit"); ("blackpoint", VInt 0); ("whitepoint", VInt 3300)]])].
(** data/cameras/nikon/1j1.toml *)
Definition cam_187 : table :=
  [("make", VStr "NIKON CORPORATION"); ("model", VStr "NIKON 1 J1"); ("clean_make", VStr "Nikon"); ("clean_model", VStr "1 J1"); ("color_matrix", VArr [VInt 8994; VInt (-2667); VInt (-865); VInt (-4594); VInt 12324; VInt 2552; VInt (-699); VInt 1786; VInt 6260]); ("color_pattern", VStr "RGGB"); ("crops", VArr [VInt 0; VInt 0; VInt 2; VInt 0]); ("modes", VArr [VTable [("mode", VStr "12bit"); ("blackpoint", VInt 0); ("whitepoint", VInt 3300)]])].
(** data/cameras/nikon/1j2.toml *)
Definition cam_188 : table :=
  [("make", VStr "NIKON CORPORATION"); ("model", VStr "NIKON 1 J2"); ("clean_make", VStr "Nikon"); ("clean_model", VStr "1 J2"); ("color_matrix", VArr [VInt 8994; VInt (-2667); VInt (-865); VInt (-4594); VInt 12324; VInt 2552; VInt (-699); VInt 1786; VInt 6260]); ("color_pattern", VStr "RGGB"); ("crops", VArr [VInt 0; VInt 0; VInt 2; VInt 0]); ("modes", VArr [VTable [("mode", VStr "12bit"); ("blackpoint", VInt 0); ("whitepoint", VInt 3300)]])].
(** data/cameras/nikon/1s2.toml *)
Definition cam_189 : table :=
  [("make", VStr "NIKON CORPORATION"); ("model", VStr "NIKON 1 S2"); ("clean_make", VStr "Nikon"); ("clean_model", VStr "1 S2"); ("color_matrix", VArr [VInt 6612; VInt (-1342); VInt (-618); VInt (-3338); VInt 11055; VInt 2623; VInt (-174); VInt 1792; VInt 5075]); ("color_pattern", VStr "RGGB"); ("crops", VArr [VInt 0; VInt 0; VInt 0; VInt 0]); ("modes", VArr [VTable [("mode", VStr "12bit"); ("blackpoint", VInt 200); ("whitepoint", VInt 4095)]])].
(** data/cameras/nikon/1v3.toml *)
Definition cam_190 : table :=
  [("make", VStr "NIKON CORPORATION"); ("model", VStr "NIKON 1 V3"); ("clean_make", VStr "Nikon"); ("clean_model", VStr "1 V3"); ("color_matrix", VArr [VInt 5958; VInt (-1559); VInt (-571); VInt (-4021); VInt 11453; VInt 2939; VInt (-634); VInt 1548; VInt 5087]); ("color_pattern", VStr "RGGB"); ("crops", VArr [VInt 0; VInt 0; VInt 0; VInt 0]); ("modes", VArr [VTable [("mode", VStr "12bit"); ("blackpoint", VInt 200); ("whitepoint", VInt 4000)]])].
(** data/cameras/nikon/b700.toml *)
Definition cam_191 : table :=
  [("make", VStr "NIKON"); ("model", VStr "COOLPIX B700"); ("clean_make", VStr "Nikon"); ("clean_model", VStr "Coolpix B700"); ("color_matrix", VArr [VInt 14387; VInt (-6014); VInt (-1299); VInt (-1357); VInt 9975; VInt 1616; VInt 467; VInt 1047; VInt 4744]); ("color_pattern", VStr "RGGB"); ("crops", VArr [VInt 0; VInt 0; VInt 0; VInt 0]); ("modes", VArr [VTable [("mode", VStr "12bit"); ("blackpoint", VInt 200); ("whitepoint", VInt 4000)]])].
(** data/cameras/nikon/d1.toml *)
Definition cam_192 : table :=
  [("make", VStr "NIKON CORPORATION"); ("model", VStr "NIKON D1"); ("clean_make", VStr "Nikon"); ("clean_model", VStr "D1"); ("color_matrix", VArr [VInt 7559; VInt (-2130); VInt (-965); VInt (-7611); VInt 15713; VInt 1972; VInt (-2478); VInt 3042; VInt 8290]); ("color_pattern", VStr "BGGR"); ("crops", VArr [VInt 0; VInt 12; VInt 12; VInt 0]); ("modes", VArr [VTable [("mode", VStr "12bit"); ("blackpoint", VInt 0); ("whitepoint", VInt 4095)]])].
(** data/cameras/nikon/d100.toml *)
Definition cam_193 : table :=
  [("make", VStr "NIKON CORPORATION"); ("model", VStr "NIKON D100"); ("clean_make", VStr "Nikon"); ("clean_model", VStr "D100"); ("color_matrix", VArr [VInt 5902; VInt (-933); VInt (-782); VInt (-8983); VInt 16719; VInt 2354; VInt (-1402); VInt 1455; VInt 6464]); ("color_pattern", VStr "GRBG"); ("crops", VArr [VInt 0; VInt 0; VInt 0; VInt 2]); ("modes", VArr [VTable [("mode", VStr "12bit"); ("blackpoint", VInt 0); ("whitepoint", VInt 4095)]])].
(** data/cameras/nikon/d1x.toml *)
Definition cam_194 : table :=
  [("make", VStr "NIKON CORPORATION"); ("model", VStr "NIKON D1X"); ("clean_make", VStr "Nikon"); ("clean_model", VStr "D1X"); ("color_matrix", VArr [VInt 7702; VInt (-2245); VInt (-975); VInt (-9114); VInt 17242; VInt 1875; VInt (-2679); VInt 3055; VInt 8521]); ("color_pattern", VStr "BGGR"); ("crops", VArr [VInt 0; VInt 0; VInt 0; VInt 0]); ("modes", VArr [VTable [("mode", VStr "12bit"); ("blackpoint", VInt 0); ("whitepoint", VInt 4095)]])].
(** data/cameras/nikon/d200.toml *)
Definition cam_195 : table :=
  [("make", VStr "NIKON CORPORATION"); ("model", VStr "NIKON D200"); ("clean_make", VStr "Nikon"); ("clean_model", VStr "D200"); ("color_matrix", VArr [VInt 8367; VInt (-2248); VInt (-763); VInt (-8758); VInt 16447; VInt 2422; VInt (-1527); VInt 1550; VInt 8053]); ("color_pattern", VStr "GRBG"); ("crops", VArr [VInt 0; VInt 0; VInt 0; VInt 2]); ("modes", VArr [VTable [("mode", VStr "12bit"); ("blackpoint", VInt 0); ("whitepoint", VInt 3880)]])].
(** data/cameras/nikon/d2x.toml *)
Definition cam_196 : table :=
  [("make", VStr "NIKON CORPORATION"); ("model", VStr "NIKON D2X"); ("clean_make", VStr "Nikon"); ("clean_model", VStr "D2X"); ("color_matrix", VArr [VInt 10231; VInt (-2769); VInt (-1255); VInt (-8301); VInt 15900; VInt 2552; VInt (-797); VInt 680; VInt 7148]); ("color_pattern", VStr "RGGB"); ("crops", VArr [VInt 0; VInt 32; VInt 8; VInt 0]); ("modes", VArr [VTable [("mode", VStr "12bit"); ("blackpoint", VInt 0); ("whitepoint", VInt 3880)]])].
(** data/cameras/nikon/d3.toml *)
Definition cam_197 : table :=
  [("make", VStr "NIKON CORPORATION"); ("model", VStr "NIKON D3"); ("clean_make", VStr "Nikon"); ("clean_model", VStr "D3"); ("color_matrix", VArr [VInt 8139; VInt (-2171); VInt (-663); VInt (-8747); VInt 16541; VInt 2295; VInt (-1925); VInt 2008; VInt 8093]); ("color_pattern", VStr "RGGB"); ("crops", VArr [VInt 0; VInt 0; VInt 0; VInt 2]); ("modes", VArr [VTable [("mode", VStr "14bit"); ("blackpoint", VInt 0); ("whitepoint", VInt 15892)]])].
(** data/cameras/nikon/d300.toml *)
Definition cam_198 : table :=
  [("make", VStr "NIKON CORPORATION"); ("model", VStr "NIKON D300"); ("clean_make", VStr "Nikon"); ("clean_model", VStr "D300"); ("color_matrix", VArr [VInt 9030; VInt (-1992); VInt (-715); VInt (-8465); VInt 16302; VInt 2255; VInt (-2689); VInt 3217; VInt 8069]); ("color_pattern", VStr "RGGB"); ("crops", VArr [VInt 0; VInt 0; VInt 0; VInt 0]); ("modes", VArr [VTable [("mode", VStr "12bit"); ("blackpoint", VInt 0); ("whitepoint", VInt 3808)]; VTable [("mode", VStr "14bit"); ("blackpoint", VInt 0); ("whitepoint", VInt 15236)]])].
(** data/cameras/nikon/d3000.toml *)
Definition cam_199 : table :=
  [("make", VStr "NIKON CORPORATION"); ("model", VStr "NIKON D3000"); ("clean_make", VStr "Nikon"); ("clean_model", VStr "D3000"); ("color_matrix", VArr [VInt 8736; VInt (-2458); VInt (-935); VInt (-9075); VInt 16894; VInt 2251; VInt (-1354); VInt 1242; VInt 8263]); ("color_pattern", VStr "GBRG"); ("crops", VArr [VInt 0; VInt 2; VInt 3; VInt 0]); ("modes", VArr [VTable [("mode", VStr "12bit"); ("blackpoint", VInt 0); ("whitepoint", VInt 3880)]])].
(** data/cameras/nikon/d300s.toml *)
Definition cam_200 : table :=
  [("make", VStr "NIKON CORPORATION"); ("model", VStr "NIKON D300S"); ("clean_make", VStr "Nikon"); ("clean_model", VStr "D300S"); ("color_matrix", VArr [VInt 9030; VInt (-1992); VInt (-716); VInt (-8465); VInt 16302; VInt 2256; VInt (-2689); VInt 3217; VInt 8069]); ("color_pattern", VStr "RGGB"); ("crops", VArr [VInt 0; VInt 0; VInt 0; VInt 0]); ("modes", VArr [VTable [("mode", VStr "14bit"); ("blackpoint", VInt 0); ("whitepoint", VInt 15236)]])].
(** data/cameras/nikon/d3100.toml *)
Definition cam_201 : table :=
  [("make", VStr "NIKON CORPORATION"); ("model", VStr "NIKON D3100"); ("clean_make", VStr "Nikon"); ("clean_model", VStr "D3100"); ("color_matrix", VArr [VInt 7911; VInt (-2167); VInt (-813); VInt (-5327); VInt 13150; VInt 2408; VInt (-1288); VInt 2483; VInt 7968]); ("color_pattern", VStr "GBRG"); ("crops", VArr [VInt 2; VInt 24; VInt 2; VInt 8]); ("modes", VArr [VTable [("mode", VStr "12bit"); ("blackpoint", VInt 0); ("whitepoint", VInt 3880)]])].
(** data/cameras/nikon/d3200.toml *)
Definition cam_202 : table :=
  [("make", VStr "NIKON CORPORATION"); ("model", VStr "NIKON D3200"); ("clean_make", VStr "Nikon"); ("clean_model", VStr "D3200"); ("color_matrix", VArr [VInt 7013; VInt (-1408); VInt (-635); VInt (-5268); VInt 12902; VInt 2640; VInt (-1470); VInt 2801; VInt 7379]); ("color_pattern", VStr "RGGB"); ("crops", VArr [VInt 0; VInt 48; VInt 0; VInt 0]); ("modes", VArr [VTable [("mode", VStr "12bit"); ("blackpoint", VInt 0); ("whitepoint", VInt 3880)]])].
(** data/cameras/nikon/d3300.toml *)
Definition cam_203 : table :=
  [("make", VStr "NIKON CORPORATION"); ("model", VStr "NIKON D3300"); ("clean_make", VStr "Nikon"); ("clean_model", VStr "D3300"); ("color_matrix", VArr [VInt 6988; VInt (-1384); VInt (-714); VInt (-5631); VInt 13410; VInt 2447; VInt (-1485); VInt 2204; VInt 7318]); ("color_pattern", VStr "RGGB"); ("crops", VArr [VInt 8; VInt 8; VInt 8; VInt 8]); ("modes", VArr [VTable [("mode", VStr "12bit"); ("blackpoint", VInt 150); ("whitepoint", VInt 3880)]])].
(** data/cameras/nikon/d3400.toml *)
Definition cam_204 : table :=
  [("make", VStr "NIKON CORPORATION"); ("model", VStr "NIKON D3400"); ("clean_make", VStr "Nikon"); ("clean_model", VStr "D3400"); ("color_matrix", VArr [VInt 6988; VInt (-1384); VInt (-714); VInt (-5631); VInt 13410; VInt 2447; VInt (-1485); VInt 2204; VInt 7318]); ("color_pattern", VStr "RGGB"); ("crops", VArr [VInt 0; VInt 0; VInt 0; VInt 0]); ("modes", VArr [VTable [("mode", VStr "12bit"); ("blackpoint", VInt 150); ("whitepoint", VInt 3880)]])].
(** data/cameras/nikon/d3x.toml *)
Definition cam_205 : table :=
  [("make", VStr "NIKON CORPORATION"); ("model", VStr "NIKON D3X"); ("clean_make", VStr "Nikon"); ("clean_model", VStr "D3X"); ("color_matrix", VArr [VInt 7171; VInt (-1986); VInt (-648); VInt (-8085); VInt 15555; VInt 2718; VInt (-2170); VInt 2512; VInt 7457]); ("color_pattern", VStr "RGGB"); ("crops", VArr [VInt 0; VInt 0; VInt 0; VInt 0]); ("modes", VArr [VTable [("mode", VStr "14bit"); ("blackpoint", VInt 0); ("whitepoint", VInt 15892)]])].
(** data/cameras/nikon/d4.toml *)
Definition cam_206 : table :=
  [("make", VStr "NIKON CORPORATION"); ("model", VStr "NIKON D4"); ("clean_make", VStr "Nikon"); ("clean_model", VStr "D4"); ("color_matrix", VArr [VInt 8598; VInt (-2848); VInt (-857); VInt (-5618); VInt 13606; VInt 2195; VInt (-1002); VInt 1773; VInt 7137]); ("color_pattern", VStr "RGGB"); ("crops", VArr [VInt 0; VInt 50; VInt 0; VInt 2]); ("modes", VArr [VTable [("mode", VStr "14bit"); ("blackpoint", VInt 0); ("whitepoint", VInt 15520)]])].
(** data/cameras/nikon/d40.toml *)
Definition cam_207 : table :=
  [("make", VStr "NIKON CORPORATION"); ("model", VStr "NIKON D40"); ("clean_make", VStr "Nikon"); ("clean_model", VStr "D40"); ("color_matrix", VArr [VInt 6992; VInt (-1668); VInt (-806); VInt (-8138); VInt 15748; VInt 2543; VInt (-874); VInt 850; VInt 7897]); ("color_pattern", VStr "BGGR"); ("crops", VArr [VInt 0; VInt 2; VInt 0; VInt 0]); ("modes", VArr [VTable [("mode", VStr "12bit"); ("blackpoint", VInt 0); ("whitepoint", VInt 3880)]])].
(** data/cameras/nikon/d40x.toml *)
Definition cam_208 : table :=
  [("make", VStr "NIKON CORPORATION"); ("model", VStr "NIKON D40X"); ("clean_make", VStr "Nikon"); ("clean_model", VStr "D40X"); ("color_matrix", VArr [VInt 8819; VInt (-2543); VInt (-911); VInt (-9025); VInt 16928; VInt 2151; VInt (-1329); VInt 1213; VInt 8449]); ("color_pattern", VStr "GBRG"); ("crops", VArr [VInt 0; VInt 0; VInt 0; VInt 4]); ("modes", VArr [VTable [("mode", VStr "12bit"); ("blackpoint", VInt 0); ("whitepoint", VInt 3880)]])].
(** data/cameras/nikon/d4s.toml *)
Definition cam_209 : table :=
  [("make", VStr "NIKON CORPORATION"); ("model", VStr "NIKON D4S"); ("clean_make", VStr "Nikon"); ("clean_model", VStr "D4S"); ("color_matrix", VArr [VInt 8598; VInt (-2848); VInt (-857); VInt (-5618); VInt 13606; VInt 2195; VInt (-1002); VInt 1773; VInt 7137]); ("color_pattern", VStr "RGGB"); ("crops", VArr [VInt 0; VInt 0; VInt 0; VInt 0]); ("modes", VArr [VTable [("mode", VStr "14bit"); ("blackpoint", VInt 768); ("whitepoint", VInt 15520)]; VTable [("mode", VStr "12bit"); ("blackpoint", VInt 192); ("whitepoint", VInt 3880)]])].
(** data/cameras/nikon/d5.toml *)
Definition cam_210 : table :=
  [("make", VStr "NIKON CORPORATION"); ("model", VStr "NIKON D5"); ("clean_make", VStr "Nikon"); ("clean_model", VStr "D5"); ("color_matrix", VArr [VInt 9200; VInt (-3522); VInt (-992); VInt (-5755); VInt 13803; VInt 2117; VInt (-753); VInt 1486; VInt 6338]); ("color_pattern", VStr "RGGB"); ("crops", VArr [VInt 0; VInt 0; VInt 0; VInt 0]); ("modes", VArr [VTable [("mode", VStr "14bit"); ("blackpoint", VInt 400); ("whitepoint", VInt 15520)]])].
(** data/cameras/nikon/d50.toml *)
Definition cam_211 : table :=
  [("make", VStr "NIKON CORPORATION"); ("model", VStr "NIKON D50"); ("clean_make", VStr "Nikon"); ("clean_model", VStr "D50"); ("color_matrix", VArr [VInt 7732; VInt (-2422); VInt (-789); VInt (-8238); VInt 15884; VInt 2498; VInt (-859); VInt 783; VInt 7330]); ("color_pattern", VStr "BGGR"); ("crops", VArr [VInt 0; VInt 2; VInt 2; VInt 0]); ("modes", VArr [VTable [("mode", VStr "12bit"); ("blackpoint", VInt 0); ("whitepoint", VInt 4095)]])].
(** data/cameras/nikon/d500.toml *)
Definition cam_212 : table :=
  [("make", VStr "NIKON CORPORATION"); ("model", VStr "NIKON D500"); ("clean_make", VStr "Nikon"); ("clean_model", VStr "D500"); ("color_matrix", VArr [VInt 8813; VInt (-3210); VInt (-1036); VInt (-4703); VInt 12868; VInt 2021; VInt (-1054); VInt 1940; VInt 6129]); ("color_pattern", VStr "RGGB"); ("crops", VArr [VInt 0; VInt 0; VInt 0; VInt 0]); ("modes", VArr [VTable [("mode", VStr "14bit"); ("blackpoint", VInt 400); ("whitepoint", VInt 15520)]; VTable [("mode", VStr "12bit"); ("blackpoint", VInt 100); ("whitepoint", VInt 3880)]])].
(** data/cameras/nikon/d5000.toml *)
Definition cam_213 : table :=
  [("make", VStr "NIKON CORPORATION"); ("model", VStr "NIKON D5000"); ("clean_make", VStr "Nikon"); ("clean_model", VStr "D5000"); ("color_matrix", VArr [VInt 7309; VInt (-1403); VInt (-519); VInt (-8474); VInt 16008; VInt 2622; VInt (-2433); VInt 2826; VInt 8064]); ("color_pattern", VStr "GBRG"); ("crops", VArr [VInt 0; VInt 0; VInt 0; VInt 0]); ("modes", VArr [VTable [("mode", VStr "12bit"); ("blackpoint", VInt 0); ("whitepoint", VInt 3767)]])].
(** data/cameras/nikon/d5100.toml *)
Definition cam_214 : table :=
  [("make", VStr "NIKON CORPORATION"); ("model", VStr "NIKON D5100"); ("clean_make", VStr "Nikon"); ("clean_model", VStr "D5100"); ("color_matrix", VArr [VInt 8198; VInt (-2239); VInt (-724); VInt (-4871); VInt 12389; VInt 2798; VInt (-1043); VInt 2050; VInt 7181]); ("color_pattern", VStr "RGGB"); ("crops", VArr [VInt 0; VInt 46; VInt 0; VInt 0]); ("modes", VArr [VTable [("mode", VStr "14bit"); ("blackpoint", VInt 0); ("whitepoint", VInt 15892)]])].
(** data/cameras/nikon/d5200.toml *)
Definition cam_215 : table :=
  [("make", VStr "NIKON CORPORATION"); ("model", VStr "NIKON D5200"); ("clean_make", VStr "Nikon"); ("clean_model", VStr "D5200"); ("color_matrix", VArr [VInt 8322; VInt (-3112); VInt (-1047); VInt (-6367); VInt 14342; VInt 2179; VInt (-988); VInt 1638; VInt 6394]); ("color_pattern", VStr "RGGB"); ("crops", VArr [VInt 0; VInt 0; VInt 0; VInt 0]); ("modes", VArr [VTable [("mode", VStr "14bit"); ("blackpoint", VInt 0); ("whitepoint", VInt 15892)]])].
(** data/cameras/nikon/d5300.toml *)
Definition cam_216 : table :=
  [("make", VStr "NIKON CORPORATION"); ("model", VStr "NIKON D5300"); ("clean_make", VStr "Nikon"); ("clean_model", VStr "D5300"); ("color_matrix", VArr [VInt 6988; VInt (-1384); VInt (-714); VInt (-5631); VInt 13410; VInt 2447; VInt (-1485); VInt 2204; VInt 7318]); ("color_pattern", VStr "RGGB"); ("crops", VArr [VInt 0; VInt 0; VInt 0; VInt 0]); ("modes", VArr [VTable [("mode", VStr "12bit"); ("blackpoint", VInt 150); ("whitepoint", VInt 3972)]; VTable [("mode", VStr "14bit"); ("blackpoint", VInt 600); ("whitepoint", VInt 15892)]])].
(** data/cameras/nikon/d5500.toml *)
Definition cam_217 : table :=
  [("make", VStr "NIKON CORPORATION"); ("model", VStr "NIKON D5500"); ("clean_make", VStr "Nikon"); ("clean_model", VStr "D5500"); ("color_matrix", VArr [VInt 8821; VInt (-2938); VInt (-785); VInt (-4178); VInt 12142; VInt 2287; VInt (-824); VInt 1651; VInt 6860]); ("color_pattern", VStr "RGGB"); ("crops", VArr [VInt 0; VInt 0; VInt 0; VInt 0]); ("modes", VArr [VTable [("mode", VStr "14bit"); ("blackpoint", VInt 600); ("whitepoint", VInt 15892)]])].
(** data/cameras/nikon/d5600.toml *)
Definition cam_218 : table :=
  [("make", VStr "NIKON CORPORATION"); ("model", VStr "NIKON D5600"); ("clean_make", VStr "Nikon"); ("clean_model", VStr "D5600"); ("color_matrix", VArr [VInt 8821; VInt (-2938); VInt (-785); VInt (-4178); VInt 12142; VInt 2287; VInt (-824); VInt 1651; VInt 6860]); ("color_pattern", VStr "RGGB"); ("crops", VArr [VInt 0; VInt 0; VInt 0; VInt 0]); ("modes", VArr [VTable [("mode", VStr "14bit"); ("blackpoint", VInt 600); ("whitepoint", VInt 15892)]; VTable [("mode", VStr "12bit"); ("blackpoint", VInt 150); ("whitepoint", VInt 3972)]])].
(** data/cameras/nikon/d60.toml *)
Definition cam_219 : table :=
  [("make", VStr "NIKON CORPORATION"); ("model", VStr "NIKON D60"); ("clean_make", VStr "Nikon"); ("clean_model", VStr "D60"); ("color_matrix", VArr [VInt 8736; VInt (-2458); VInt (-935); VInt (-9075); VInt 16894; VInt 2251; VInt (-1354); VInt 1242; VInt 8263]); ("color_pattern", VStr "GBRG"); ("crops", VArr [VInt 0; VInt 0; VInt 0; VInt 0]); ("modes", VArr [VTable [("mode", VStr "12bit"); ("blackpoint", VInt 0); ("whitepoint", VInt 3880)]])].
(** data/cameras/nikon/d600.toml *)
Definition cam_220 : table :=
  [("make", VStr "NIKON CORPORATION"); ("model", VStr "NIKON D600"); ("clean_make", VStr "Nikon"); ("clean_model", VStr "D600"); ("color_matrix", VArr [VInt 8178; VInt (-2245); VInt (-609); VInt (-4857); VInt 12394; VInt 2776; VInt (-1207); VInt 2086; VInt 7298]); ("color_pattern", VStr "RGGB"); ("crops", VArr [VInt 0; VInt 50; VInt 0; VInt 0]); ("modes", VArr [VTable [("mode", VStr "14bit"); ("blackpoint", VInt 0); ("whitepoint", VInt 15520)]; VTable [("mode", VStr "12bit"); ("blackpoint", VInt 0); ("whitepoint", VInt 3880)]])].
(** data/cameras/nikon/d610.toml *)
Definition cam_221 : table :=
  [("make", VStr "NIKON CORPORATION"); ("model", VStr "NIKON D610"); ("clean_make", VStr "Nikon"); ("clean_model", VStr "D610"); ("color_matrix", VArr [VInt 8178; VInt (-2245); VInt (-609); VInt (-4857); VInt 12394; VInt 2776; VInt (-1207); VInt 2086; VInt 7298]); ("color_pattern", VStr "RGGB"); ("crops", VArr [VInt 0; VInt 50; VInt 0; VInt 0]); ("modes", VArr [VTable [("mode", VStr "14bit"); ("blackpoint", VInt 0); ("whitepoint", VInt 15520)]; VTable [("mode", VStr "12bit"); ("blackpoint", VInt 0); ("whitepoint", VInt 3880)]])].
(** data/cameras/nikon/d70.toml *)
Definition cam_222 : table :=
  [("make", VStr "NIKON CORPORATION"); ("model", VStr "NIKON D70"); ("clean_make", VStr "Nikon"); ("clean_model", VStr "D70"); ("color_matrix", VArr [VInt 7732; VInt (-2422); VInt (-789); VInt (-8238); VInt 15884; VInt 2498; VInt (-859); VInt 783; VInt 7330]); ("color_pattern", VStr "BGGR"); ("crops", VArr [VInt 0; VInt 2; VInt 0; VInt 0]); ("modes", VArr [VTable [("mode", VStr "12bit"); ("blackpoint", VInt 0); ("whitepoint", VInt 4095)]])].
(** data/cameras/nikon/d700.toml *)
Definition cam_223 : table :=
  [("make", VStr "NIKON CORPORATION"); ("model", VStr "NIKON D700"); ("clean_make", VStr "Nikon"); ("clean_model", VStr "D700"); ("color_matrix", VArr [VInt 8139; VInt (-2171); VInt (-663); VInt (-8747); VInt 16541; VInt 2295; VInt (-1925); VInt 2008; VInt 8093]); ("color_pattern", VStr "RGGB"); ("crops", VArr [VInt 0; VInt 0; VInt 0; VInt 2]); ("modes", VArr [VTable [("mode", VStr "14bit"); ("blackpoint", VInt 0); ("whitepoint", VInt 15892)]])].
(** data/cameras/nikon/d7000.toml *)
Definition cam_224 : table :=
  [("make", VStr "NIKON CORPORATION"); ("model", VStr "NIKON D7000"); ("clean_make", VStr "Nikon"); ("clean_model", VStr "D7000"); ("color_matrix", VArr [VInt 8198; VInt (-2239); VInt (-724); VInt (-4871); VInt 12389; VInt 2798; VInt (-1043); VInt 2050; VInt 7181]); ("color_pattern", VStr "RGGB"); ("crops", VArr [VInt 0; VInt 46; VInt 2; VInt 0]); ("modes", VArr [VTable [("mode", VStr "14bit"); ("blackpoint", VInt 0); ("whitepoint", VInt 15892)]; VTable [("mode", VStr "12bit"); ("blackpoint", VInt 0); ("whitepoint", VInt 3972)]])].
(** data/cameras/nikon/d70s.toml *)
Definition cam_225 : table :=
  [("make", VStr "NIKON CORPORATION"); ("model", VStr "NIKON D70s"); ("clean_make", VStr "Nikon"); ("clean_model", VStr "D70s"); ("color_matrix", VArr [VInt 7732; VInt (-2422); VInt (-789); VInt (-8238); VInt 15884; VInt 2498; VInt (-859); VInt 783; VInt 7330]); ("color_pattern", VStr "BGGR"); ("crops", VArr [VInt 0; VInt 0; VInt 0; VInt 0]); ("modes", VArr [VTable [("mode", VStr "12bit"); ("blackpoint", VInt 0); ("whitepoint", VInt 4095)]])].
(** data/cameras/nikon/d7100.toml *)
Definition cam_226 : table :=
  [("make", VStr "NIKON CORPORATION"); ("model", VStr "NIKON D7100"); ("clean_make", VStr "Nikon"); ("clean_model", VStr "D7100"); ("color_matrix", VArr [VInt 8322; VInt (-3112); VInt (-1047); VInt (-6367); VInt 14342; VInt 2179; VInt (-988); VInt 1638; VInt 6394]); ("color_pattern", VStr "RGGB"); ("crops", VArr [VInt 0; VInt 0; VInt 0; VInt 0]); ("modes", VArr [VTable [("mode", VStr "14bit"); ("blackpoint", VInt 0); ("whitepoint", VInt 15892)]; VTable [("mode", VStr "12bit"); ("blackpoint", VInt 0); ("whitepoint", VInt 3972)]])].
(** data/cameras/nikon/d7200.toml *)
Definition cam_227 : table :=
  [("make", VStr "NIKON CORPORATION"); ("model", VStr "NIKON D7200"); ("clean_make", VStr "Nikon"); ("clean_model", VStr "D7200"); ("color_matrix", VArr [VInt 8322; VInt (-3112); VInt (-1047); VInt (-6367); VInt 14342; VInt 2179; VInt (-988); VInt 1638; VInt 6394]); ("color_pattern", VStr "RGGB"); ("crops", VArr [VInt 0; VInt 0; VInt 0; VInt 0]); ("modes", VArr [VTable [("mode", VStr "14bit"); ("blackpoint", VInt 600); ("whitepoint", VInt 15892)]; VTable [("mode", VStr "12bit"); ("blackpoint", VInt 150); ("whitepoint", VInt 3972)]])].
(** data/cameras/nikon/d750.toml *)
Definition cam_228 : table :=
  [("make", VStr "NIKON CORPORATION"); ("model", VStr "NIKON D750"); ("clean_make", VStr "Nikon"); ("clean_model", VStr "D750"); ("color_matrix", VArr [VInt 9020; VInt (-2890); VInt (-715); VInt (-4535); VInt 12436; VInt 2348; VInt (-934); VInt 1919; VInt 7086]); ("color_pattern", VStr "RGGB"); ("crops", VArr [VInt 0; VInt 0; VInt 0; VInt 0]); ("modes", VArr [VTable [("mode", VStr "14bit"); ("blackpoint", VInt 600); ("whitepoint", VInt 15520)]; VTable [("mode", VStr "12bit"); ("blackpoint", VInt 150); ("whitepoint", VInt 3880)]])].
(** data/cameras/nikon/d80.toml *)
Definition cam_229 : table :=
  [("make", VStr "NIKON CORPORATION"); ("model", VStr "NIKON D80"); ("clean_make", VStr "Nikon"); ("clean_model", VStr "D80"); ("color_matrix", VArr [VInt 8629; VInt (-2410); VInt (-883); VInt (-9055); VInt 16940; VInt 2171; VInt (-1490); VInt 1363; VInt 8520]); ("color_pattern", VStr "GBRG"); ("crops", VArr [VInt 0; VInt 0; VInt 0; VInt 0]); ("modes", VArr [VTable [("mode", VStr "12bit"); ("blackpoint", VInt 0); ("whitepoint", VInt 3880)]])].
(** data/cameras/nikon/d800.toml *)
Definition cam_230 : table :=
  [("make", VStr "NIKON CORPORATION"); ("model", VStr "NIKON D800"); ("clean_make", VStr "Nikon"); ("clean_model", VStr "D800"); ("model_aliases", VArr [VArr [VStr "NIKON D800E"; VStr "D800E"]]); ("color_matrix", VArr [VInt 7866; VInt (-2108); VInt (-555); VInt (-4869); VInt 12483; VInt 2681; VInt (-1176); VInt 2069; VInt 7501]); ("color_pattern", VStr "RGGB"); ("crops", VArr [VInt 0; VInt 48; VInt 0; VInt 2]); ("modes", VArr [VTable [("mode", VStr "12bit"); ("blackpoint", VInt 0); ("whitepoint", VInt 3880)]; VTable [("mode", VStr "14bit"); ("blackpoint", VInt 0); ("whitepoint", VInt 15520)]])].
(** data/cameras/nikon/d810.toml *)
Definition cam_231 : table :=
  [("make", VStr "NIKON CORPORATION"); ("model", VStr "NIKON D810"); ("clean_make", VStr "Nikon"); ("clean_model", VStr "D810"); ("color_matrix", VArr [VInt 9369; VInt (-3195); VInt (-791); VInt (-4488); VInt 12430; VInt 2301; VInt (-893); VInt 1796; VInt 6872]); ("color_pattern", VStr "RGGB"); ("crops", VArr [VInt 0; VInt 0; VInt 0; VInt 0]); ("modes", VArr [VTable [("mode", VStr "12bit"); ("blackpoint", VInt 150); ("whitepoint", VInt 3880)]; VTable [("mode", VStr "14bit"); ("blackpoint", VInt 600); ("whitepoint", VInt 15520)]])].
(** data/cameras/nikon/d90.toml *)
Definition cam_232 : table :=
  [("make", VStr "NIKON CORPORATION"); ("model", VStr "NIKON D90"); ("clean_make", VStr "Nikon"); ("clean_model", VStr "D90"); ("color_matrix", VArr [VInt 7309; VInt (-1403); VInt (-519); VInt (-8474); VInt 16008; VInt 2622; VInt (-2434); VInt 2826; VInt 8064]); ("color_pattern", VStr "GBRG"); ("crops", VArr [VInt 0; VInt 0; VInt 0; VInt 0]); ("modes", VArr [VTable [("mode", VStr "12bit"); ("blackpoint", VInt 0); ("whitepoint", VInt 3767)]])].
(** data/cameras/nikon/df.toml *)
Definition cam_233 : table :=
  [("make", VStr "NIKON CORPORATION"); ("model", VStr "NIKON Df"); ("clean_make", VStr "Nikon"); ("clean_model", VStr "Df"); ("color_matrix", VArr [VInt 8598; VInt (-2848); VInt (-857); VInt (-5618); VInt 13606; VInt 2195; VInt (-1002); VInt 1773; VInt 7137]); ("color_pattern", VStr "RGGB"); ("crops", VArr [VInt 0; VInt 50; VInt 0; VInt 2]); ("modes", VArr [VTable [("mode", VStr "14bit"); ("blackpoint", VInt 0); ("whitepoint", VInt 15520)]; VTable [("mode", VStr "12bit"); ("blackpoint", VInt 0); ("whitepoint", VInt 3880)]])].
(** data/cameras/nikon/ds200.toml *)
Definition cam_234 : table :=
  [("make", VStr "NIKON CORPORATION"); ("model", VStr "NIKON D5200"); ("clean_make", VStr "Nikon"); ("clean_model", VStr "D5200"); ("color_matrix", VArr [VInt 8322; VInt (-3112); VInt (-1047); VInt (-6367); VInt 14342; VInt 2179; VInt (-988); VInt 1638; VInt 6394]); ("color_pattern", VStr "RGGB"); ("crops", VArr [VInt 0; VInt 0; VInt 0; VInt 0]); ("modes", VArr [VTable [("mode", VStr "14bit"); ("blackpoint", VInt 0); ("whitepoint", VInt 15892)]])].
(** data/cameras/nikon/e5400.toml *)
Definition cam_235 : table :=
  [("make", VStr "NIKON"); ("model", VStr "E5400"); ("clean_make", VStr "Nikon"); ("clean_model", VStr "E5400"); ("blackpoint", VInt 0); ("whitepoint", VInt 4095); ("color_matrix", VArr [VInt 9349; VInt (-2987); VInt (-1001); VInt (-7919); VInt 15766; VInt 2266; VInt (-2098); VInt 2680; VInt 6839]); ("color_pattern", VStr "BGGR"); ("crops", VArr [VInt 0; VInt 0; VInt 0; VInt 0]); ("hints", VArr [VStr "coolpixsplit"])].
(** data/cameras/nikon/e5700.toml *)
Definition cam_236 : table :=
  [("make", VStr "NIKON"); ("model", VStr "E5700"); ("clean_make", VStr "Nikon"); ("clean_model", VStr "E5700"); ("blackpoint", VInt 0); ("whitepoint", VInt 4095); ("color_matrix", VArr [VInt (-5368); VInt 11478; VInt 2368; VInt 5537; VInt (-113); VInt 3148; VInt (-4969); VInt 10021; VInt 5782; VInt 778; VInt 9028; VInt 211]); ("color_pattern", VStr "RGEB"); ("crops", VArr [VInt 0; VInt 0; VInt 0; VInt 0]); ("hints", VArr [VStr "coolpixsplit"; VStr "nowb"])].
(** data/cameras/nikon/p330.toml *)
Definition cam_237 : table :=
  [("make", VStr "NIKON"); ("model", VStr "COOLPIX P330"); ("clean_make", VStr "Nikon"); ("clean_model", VStr "Coolpix P330"); ("color_matrix", VArr [VInt 10321; VInt (-3920); VInt (-931); VInt (-2750); VInt 11146; VInt 1824; VInt (-442); VInt 1545; VInt 5539]); ("color_pattern", VStr "RGGB"); ("crops", VArr [VInt 0; VInt 0; VInt 0; VInt 0]); ("modes", VArr [VTable [("mode", VStr "14bit"); ("blackpoint", VInt 3210); ("whitepoint", VInt 65000)]])].
(** data/cameras/nikon/p340.toml *)
Definition cam_238 : table :=
  [("make", VStr "NIKON"); ("model", VStr "COOLPIX P340"); ("clean_make", VStr "Nikon"); ("clean_model", VStr "Coolpix P340"); ("blackpoint", VInt 200); ("whitepoint", VInt 3800); ("color_matrix", VArr [VInt 10321; VInt (-3920); VInt (-931); VInt (-2750); VInt 11146; VInt 1824; VInt (-442); VInt 1545; VInt 5539]); ("color_pattern", VStr "RGGB"); ("crops", VArr [VInt 0; VInt 0; VInt 0; VInt 0]); ("hints", VArr [VStr "msb"])].
(** data/cameras/nikon/p6000.toml *)
Definition cam_239 : table :=
  [("make", VStr "NIKON"); ("model", VStr "COOLPIX P6000"); ("clean_make", VStr "Nikon"); ("clean_model", VStr "Coolpix P6000"); ("blackpoint", VInt 0); ("whitepoint", VInt 4095); ("color_matrix", VArr [VInt 9698; VInt (-3367); VInt (-914); VInt (-4706); VInt 12584; VInt 2368; VInt (-837); VInt 968; VInt 5801]); ("color_pattern", VStr "RGGB"); ("crops", VArr [VInt 0; VInt 0; VInt 0; VInt 0]); ("hints", VArr [VStr "msb32"])].
(** data/cameras/nikon/p7000.toml *)
Definition cam_240 : table :=
  [("make", VStr "NIKON"); ("model", VStr "COOLPIX P7000"); ("clean_make", VStr "Nikon"); ("clean_model", VStr "Coolpix P7000"); ("blackpoint", VInt 0); ("whitepoint", VInt 4095); ("color_matrix", VArr [VInt 11432; VInt (-3679); VInt (-1111); VInt (-3169); VInt 11239; VInt 2202; VInt (-791); VInt 1380; VInt 4455]); ("color_pattern", VStr "RGGB"); ("crops", VArr [VInt 0; VInt 0; VInt 0; VInt 0]); ("hints", VArr [VStr "msb32"])].
(** data/cameras/nikon/p7100.toml *)
Definition cam_241 : table :=
  [("make", VStr "NIKON"); ("model", VStr "COOLPIX P7100"); ("clean_make", VStr "Nikon"); ("clean_model", VStr "Coolpix P7100"); ("blackpoint", VInt 0); ("whitepoint", VInt 3800); ("color_matrix", VArr [VInt 11053; VInt (-4269); VInt (-1024); VInt (-1976); VInt 10182; VInt 2088; VInt (-526); VInt 1263; VInt 4469]); ("color_pattern", VStr "RGGB"); ("crops", VArr [VInt 0; VInt 0; VInt 0; VInt 0]); ("hints", VArr [VStr "msb32"])].
(** data/cameras/nikon/v1.toml *)
Definition cam_242 : table :=
  [("make", VStr "NIKON CORPORATION"); ("model", VStr "NIKON 1 V1"); ("clean_make", VStr "Nikon"); ("clean_model", VStr "1 V1"); ("color_matrix", VArr [VInt 8994; VInt (-2667); VInt (-865); VInt (-4594); VInt 12324; VInt 2552; VInt (-699); VInt 1786; VInt 6260]); ("color_pattern", VStr "RGGB"); ("crops", VArr [VInt 0; VInt 0; VInt 2; VInt 0]); ("modes", VArr [VTable [("mode", VStr "12bit"); ("blackpoint", VInt 0); ("whitepoint", VInt 4095)]])].
(** data/cameras/olympus/c5050z.toml *)
Definition cam_243 : table :=
  [("make", VStr "OLYMPUS OPTICAL CO.,LTD"); ("model", VStr "C5050Z"); ("clean_make", VStr "Olympus"); ("clean_model", VStr "C5050Z"); ("blackpoint", VInt 0); ("whitepoint", VInt 4095); ("color_matrix", VArr [VInt 10508; VInt (-3124); VInt (-1273); VInt (-6079); VInt 14294; VInt 1901; VInt (-1653); VInt 2306; VInt 6237]); ("color_pattern", VStr "BGGR"); ("crops", VArr [VInt 0; VInt 0; VInt 0; VInt 0])].
(** data/cameras/olympus/c5060wz.toml *)
Definition cam_244 : table :=
  [("make", VStr "OLYMPUS CORPORATION"); ("model", VStr "C5060WZ"); ("clean_make", VStr "Olympus"); ("clean_model", VStr "C5060WZ"); ("blackpoint", VInt 0); ("whitepoint", VInt 4095); ("color_matrix", VArr [VInt 10445; VInt (-3362); VInt (-1307); VInt (-7662); VInt 15690; VInt 2058; VInt (-1135); VInt 1176; VInt 7602]); ("color_pattern", VStr "RGGB"); ("crops", VArr [VInt 0; VInt 0; VInt 0; VInt 0])].
(** data/cameras/olympus/c7070wz.toml *)
Definition cam_245 : table :=
  [("make", VStr "OLYMPUS IMAGING CORP."); ("model", VStr "C7070WZ"); ("clean_make", VStr "Olympus"); ("clean_model", VStr "C7070WZ"); ("blackpoint", VInt 0); ("whitepoint", VInt 4095); ("color_matrix", VArr [VInt 10252; VInt (-3531); VInt (-1095); VInt (-7114); VInt 14850; VInt 2436; VInt (-1451); VInt 1723; VInt 6365]); ("color_pattern", VStr "RGGB"); ("crops", VArr [VInt 0; VInt 0; VInt 0; VInt 0])].
(** data/cameras/olympus/c8080.toml *)
Definition cam_246 : table :=
  [("make", VStr "OLYMPUS CORPORATION"); ("model", VStr "C8080WZ"); ("clean_make", VStr "Olympus"); ("clean_model", VStr "C8080WZ"); ("blackpoint", VInt 0); ("whitepoint", VInt 4095); ("color_matrix", VArr [VInt 8606; VInt (-2509); VInt (-1014); VInt (-8238); VInt 15714; VInt 2703; VInt (-942); VInt 979; VInt 7760]); ("color_pattern", VStr "BGGR"); ("crops", VArr [VInt 0; VInt 0; VInt 0; VInt 0])].
(** data/cameras/olympus/e-1.toml *)
Definition cam_247 : table :=
  [("make", VStr "OLYMPUS CORPORATION"); ("model", VStr "E-1"); ("clean_make", VStr "Olympus"); ("clean_model", VStr "E-1"); ("blackpoint", VInt 65); ("whitepoint", VInt 4095); ("color_matrix", VArr [VInt 11846; VInt (-4767); VInt (-945); VInt (-7027); VInt 15878; VInt 1089; VInt (-2699); VInt 4122; VInt 8311]); ("color_pattern", VStr "GRBG"); ("crops", VArr [VInt 0; VInt 0; VInt 0; VInt 0])].
(** data/cameras/olympus/e-20.toml *)
Definition cam_248 : table :=
  [("make", VStr "OLYMPUS OPTICAL CO.,LTD"); ("model", VStr "E-20,E-20N,E-20P"); ("clean_make", VStr "Olympus"); ("clean_model", VStr "E-20"); ("blackpoint", VInt 0); ("whitepoint", VInt 4092); ("color_matrix", VArr [VInt 13173; VInt (-4732); VInt (-1499); VInt (-5807); VInt 14036; VInt 1895; VInt (-2045); VInt 2452; VInt 7142]); ("color_pattern", VStr "RGGB"); ("crops", VArr [VInt 0; VInt 0; VInt 0; VInt 0])].
(** data/cameras/olympus/e-3.toml *)
Definition cam_249 : table :=
  [("make", VStr "OLYMPUS IMAGING CORP."); ("model", VStr "E-3"); ("clean_make", VStr "Olympus"); ("clean_model", VStr "E-3"); ("blackpoint", VInt 53); ("whitepoint", VInt 4015); ("color_matrix", VArr [VInt 9487; VInt (-2875); VInt (-1115); VInt (-7533); VInt 15606; VInt 2010; VInt (-1618); VInt 2100; VInt 7389]); ("color_pattern", VStr "RGGB"); ("crops", VArr [VInt 0; VInt 0; VInt 0; VInt 0])].
(** data/cameras/olympus/e-30.toml *)
Definition cam_250 : table :=
  [("make", VStr "OLYMPUS IMAGING CORP."); ("model", VStr "E-30"); ("clean_make", VStr "Olympus"); ("clean_model", VStr "E-30"); ("blackpoint", VInt 64); ("whitepoint", VInt 4015); ("color_matrix", VArr [VInt 8144; VInt (-1861); VInt (-1111); VInt (-7763); VInt 15894; VInt 1929; VInt (-1865); VInt 2542; VInt 7607]); ("color_pattern", VStr "BGGR"); ("crops", VArr [VInt 0; VInt 6; VInt 2; VInt 0])].
(** data/cameras/olympus/e-300.toml *)
Definition cam_251 : table :=
  [("make", VStr "OLYMPUS IMAGING CORP."); ("model", VStr "E-300"); ("clean_make", VStr "Olympus"); ("clean_model", VStr "E-300"); ("blackpoint", VInt 63); ("whitepoint", VInt 4095); ("color_matrix", VArr [VInt 7828; VInt (-1761); VInt (-348); VInt (-5788); VInt 14071; VInt 1830; VInt (-2853); VInt 4518; VInt 6557]); ("color_pattern", VStr "RGGB"); ("crops", VArr [VInt 0; VInt 20; VInt 0; VInt 0])].
(** data/cameras/olympus/e-330.toml *)
Definition cam_252 : table :=
  [("make", VStr "OLYMPUS IMAGING CORP."); ("model", VStr "E-330"); ("clean_make", VStr "Olympus"); ("clean_model", VStr "E-330"); ("blackpoint", VInt 70); ("whitepoint", VInt 4095); ("color_matrix", VArr [VInt 8961; VInt (-2473); VInt (-1084); VInt (-7979); VInt 15990; VInt 2067; VInt (-2319); VInt 3035; VInt 8249]); ("color_pattern", VStr "RGGB"); ("crops", VArr [VInt 0; VInt 30; VInt 0; VInt 0])].
(** data/cameras/olympus/e-410.toml *)
Definition cam_253 : table :=
  [("make", VStr "OLYMPUS IMAGING CORP."); ("model", VStr "E-410"); ("clean_make", VStr "Olympus"); ("clean_model", VStr "E-410"); ("blackpoint", VInt 72); ("whitepoint", VInt 3601); ("color_matrix", VArr [VInt 8856; VInt (-2582); VInt (-1026); VInt (-7761); VInt 15766; VInt 2082; VInt (-2009); VInt 2575; VInt 7469]); ("color_pattern", VStr "RGGB"); ("crops", VArr [VInt 0; VInt 0; VInt 0; VInt 0])].
(** data/cameras/olympus/e-420.toml *)
Definition cam_254 : table :=
  [("make", VStr "OLYMPUS IMAGING CORP."); ("model", VStr "E-420"); ("clean_make", VStr "Olympus"); ("clean_model", VStr "E-420"); ("blackpoint", VInt 0); ("whitepoint", VInt 4015); ("color_matrix", VArr [VInt 8746; VInt (-2425); VInt (-1095); VInt (-7594); VInt 15612; VInt 2073; VInt (-1780); VInt 2309; VInt 7416]); ("color_pattern", VStr "RGGB"); ("crops", VArr [VInt 0; VInt 0; VInt 0; VInt 0])].
(** data/cameras/olympus/e-450.toml *)
Definition cam_255 : table :=
  [("make", VStr "OLYMPUS IMAGING CORP."); ("model", VStr "E-450"); ("clean_make", VStr "Olympus"); ("clean_model", VStr "E-450"); ("blackpoint", VInt 69); ("whitepoint", VInt 4015); ("color_matrix", VArr [VInt 8745; VInt (-2425); VInt (-1095); VInt (-7594); VInt 15613; VInt 2073; VInt (-1780); VInt 2309; VInt 7416]); ("color_pattern", VStr "RGGB"); ("crops", VArr [VInt 0; VInt 0; VInt 0; VInt 0])].
(** data/cameras/olympus/e-5.toml *)
Definition cam_256 : table :=
  [("make", VStr "OLYMPUS IMAGING CORP."); ("model", VStr "E-5"); ("clean_make", VStr "Olympus"); ("clean_model", VStr "E-5"); ("blackpoint", VInt 64); ("whitepoint", VInt 3604); ("color_matrix", VArr [VInt 11200; VInt (-3783); VInt (-1325); VInt (-4576); VInt 12593; VInt 2206; VInt (-695); VInt 1742; VInt 7504]); ("color_pattern", VStr "BGGR"); ("crops", VArr [VInt 0; VInt 4; VInt 0; VInt 0])].
(** data/cameras/olympus/e-500.toml *)
Definition cam_257 : table :=
  [("make", VStr "OLYMPUS IMAGING CORP."); ("model", VStr "E-500"); ("clean_make", VStr "Olympus"); ("clean_model", VStr "E-500"); ("blackpoint", VInt 63); ("whitepoint", VInt 3967); ("color_matrix", VArr [VInt 8136; VInt (-1968); VInt (-299); VInt (-5481); VInt 13742; VInt 1871; VInt (-2556); VInt 4205; VInt 6630]); ("color_pattern", VStr "RGGB"); ("crops", VArr [VInt 0; VInt 20; VInt 0; VInt 0])].
(** data/cameras/olympus/e-510.toml *)
Definition cam_258 : table :=
  [("make", VStr "OLYMPUS IMAGING CORP."); ("model", VStr "E-510"); ("clean_make", VStr "Olympus"); ("clean_model", VStr "E-510"); ("blackpoint", VInt 73); ("whitepoint", VInt 3500); ("color_matrix", VArr [VInt 8785; VInt (-2529); VInt (-1033); VInt (-7639); VInt 15624; VInt 2112; VInt (-1783); VInt 2300; VInt 7817]); ("color_pattern", VStr "RGGB"); ("crops", VArr [VInt 0; VInt 0; VInt 0; VInt 0])].
(** data/cameras/olympus/e-520.toml *)
Definition cam_259 : table :=
  [("make", VStr "OLYMPUS IMAGING CORP."); ("model", VStr "E-520"); ("clean_make", VStr "Olympus"); ("clean_model", VStr "E-520"); ("blackpoint", VInt 69); ("whitepoint", VInt 4015); ("color_matrix", VArr [VInt 8344; VInt (-2322); VInt (-1020); VInt (-7596); VInt 15635; VInt 2048; VInt (-1748); VInt 2269; VInt 7287]); ("color_pattern", VStr "RGGB"); ("crops", VArr [VInt 0; VInt 0; VInt 0; VInt 0])].
(** data/cameras/olympus/e-600.toml *)
Definition cam_260 : table :=
  [("make", VStr "OLYMPUS IMAGING CORP."); ("model", VStr "E-600"); ("clean_make", VStr "Olympus"); ("clean_model", VStr "E-600"); ("blackpoint", VInt 65); ("whitepoint", VInt 4015); ("color_matrix", VArr [VInt 8453; VInt (-2198); VInt (-1092); VInt (-7609); VInt 15681; VInt 2008; VInt (-1725); VInt 2337; VInt 7824]); ("color_pattern", VStr "BGGR"); ("crops", VArr [VInt 0; VInt 4; VInt 12; VInt 0])].
(** data/cameras/olympus/e-m1.toml *)
Definition cam_261 : table :=
  [("make", VStr "OLYMPUS IMAGING CORP."); ("model", VStr "E-M1"); ("clean_make", VStr "Olympus"); ("clean_model", VStr "E-M1"); ("blackpoint", VInt 255); ("whitepoint", VInt 4000); ("color_matrix", VArr [VInt 7687; VInt (-1984); VInt (-606); VInt (-4327); VInt 11928; VInt 2721; VInt (-1381); VInt 2339; VInt 6452]); ("color_pattern", VStr "BGGR"); ("crops", VArr [VInt 0; VInt 0; VInt 0; VInt 0])].
(** data/cameras/olympus/e-m10.toml *)
Definition cam_262 : table :=
  [("make", VStr "OLYMPUS IMAGING CORP."); ("model", VStr "E-M10"); ("clean_make", VStr "Olympus"); ("clean_model", VStr "E-M10"); ("blackpoint", VInt 252); ("whitepoint", VInt 4000); ("color_matrix", VArr [VInt 8380; VInt (-2630); VInt (-639); VInt (-2887); VInt 10725; VInt 2496; VInt (-627); VInt 1427; VInt 5438]); ("color_pattern", VStr "RGGB"); ("crops", VArr [VInt 8; VInt 24; VInt 8; VInt 8])].
(** data/cameras/olympus/e-m10mk2.toml *)
Definition cam_263 : table :=
  [("make", VStr "OLYMPUS CORPORATION"); ("model", VStr "E-M10MarkII"); ("clean_make", VStr "Olympus"); ("clean_model", VStr "E-M10 Mark II"); ("blackpoint", VInt 254); ("whitepoint", VInt 4000); ("color_matrix", VArr [VInt 8380; VInt (-2630); VInt (-639); VInt (-2887); VInt 10725; VInt 2496; VInt (-627); VInt 1427; VInt 5438]); ("color_pattern", VStr "RGGB"); ("crops", VArr [VInt 0; VInt 0; VInt 0; VInt 0])].
(** data/cameras/olympus/e-m1mk2.toml *)
Definition cam_264 : table :=
  [("make", VStr "OLYMPUS CORPORATION"); ("model", VStr "E-M1MarkII"); ("clean_make", VStr "OLYMPUS CORPORATION"); ("clean_model", VStr "E-M1MarkII"); ("blackpoint", VInt 254); ("whitepoint", VInt 4000); ("color_matrix", VArr [VInt 9383; VInt (-3170); VInt (-763); VInt (-2457); VInt 10702; VInt 2020; VInt (-384); VInt 1236; VInt 5552]); ("color_pattern", VStr "RGGB"); ("crops", VArr [VInt 0; VInt 0; VInt 0; VInt 0])].
(** data/cameras/olympus/e-m5.toml *)
Definition cam_265 : table :=
  [("make", VStr "OLYMPUS IMAGING CORP."); ("model", VStr "E-M5"); ("clean_make", VStr "Olympus"); ("clean_model", VStr "E-M5"); ("blackpoint", VInt 254); ("whitepoint", VInt 4000); ("color_matrix", VArr [VInt 8380; VInt (-2630); VInt (-639); VInt (-2887); VInt 10725; VInt 2496; VInt (-627); VInt 1427; VInt 5438]); ("color_pattern", VStr "RGGB"); ("crops", VArr [VInt 8; VInt 24; VInt 8; VInt 8])].
(** data/cameras/olympus/e-m5mk2.toml *)
Definition cam_266 : table :=
  [("make", VStr "OLYMPUS IMAGING CORP."); ("model", VStr "E-M5MarkII"); ("clean_make", VStr "Olympus"); ("clean_model", VStr "E-M5 Mark II"); ("blackpoint", VInt 253); ("whitepoint", VInt 4000); ("color_matrix", VArr [VInt 9422; VInt (-3258); VInt (-711); VInt (-2655); VInt 10898; VInt 2015; VInt (-512); VInt 1354; VInt 5512]); ("color_pattern", VStr "RGGB"); ("crops", VArr [VInt 0; VInt 0; VInt 0; VInt 0])].
(** data/cameras/olympus/e-p1.toml *)
Definition cam_267 : table :=
  [("make", VStr "OLYMPUS IMAGING CORP."); ("model", VStr "E-P1"); ("clean_make", VStr "Olympus"); ("clean_model", VStr "E-P1"); ("blackpoint", VInt 64); ("whitepoint", VInt 4095); ("color_matrix", VArr [VInt 8343; VInt (-2050); VInt (-1021); VInt (-7715); VInt 15705; VInt 2103; VInt (-1831); VInt 2380; VInt 8235]); ("color_pattern", VStr "RGGB"); ("crops", VArr [VInt 0; VInt 6; VInt 2; VInt 0])].
(** data/cameras/olympus/e-p2.toml *)
Definition cam_268 : table :=
  [("make", VStr "OLYMPUS IMAGING CORP."); ("model", VStr "E-P2"); ("clean_make", VStr "Olympus"); ("clean_model", VStr "E-P2"); ("blackpoint", VInt 64); ("whitepoint", VInt 4095); ("color_matrix", VArr [VInt 8343; VInt (-2050); VInt (-1021); VInt (-7715); VInt 15705; VInt 2103; VInt (-1831); VInt 2380; VInt 8235]); ("color_pattern", VStr "RGGB"); ("crops", VArr [VInt 0; VInt 0; VInt 0; VInt 0])].
(** data/cameras/olympus/e-p3.toml *)
Definition cam_269 : table :=
  [("make", VStr "OLYMPUS IMAGING CORP."); ("model", VStr "E-P3"); ("clean_make", VStr "Olympus"); ("clean_model", VStr "E-P3"); ("blackpoint", VInt 64); ("whitepoint", VInt 3843); ("color_matrix", VArr [VInt 7575; VInt (-2159); VInt (-571); VInt (-3722); VInt 11341; VInt 2725; VInt (-1434); VInt 2819; VInt 6271]); ("color_pattern", VStr "RGGB"); ("crops", VArr [VInt 0; VInt 26; VInt 0; VInt 0])].
(** data/cameras/olympus/e-p5.toml *)
Definition cam_270 : table :=
  [("make", VStr "OLYMPUS IMAGING CORP."); ("model", VStr "E-P5"); ("clean_make", VStr "Olympus"); ("clean_model", VStr "E-P5"); ("blackpoint", VInt 255); ("whitepoint", VInt 4000); ("color_matrix", VArr [VInt 8380; VInt (-2630); VInt (-639); VInt (-2887); VInt 10725; VInt 2496; VInt (-627); VInt 1427; VInt 5438]); ("color_pattern", VStr "RGGB"); ("crops", VArr [VInt 8; VInt 24; VInt 8; VInt 8])].
(** data/cameras/olympus/e-pl1.toml *)
Definition cam_271 : table :=
  [("make", VStr "OLYMPUS IMAGING CORP."); ("model", VStr "E-PL1"); ("clean_make", VStr "Olympus"); ("clean_model", VStr "E-PL1"); ("blackpoint", VInt 64); ("whitepoint", VInt 3604); ("color_matrix", VArr [VInt 11408; VInt (-4289); VInt (-1215); VInt (-4286); VInt 12385; VInt 2118; VInt (-387); VInt 1467; VInt 7787]); ("color_pattern", VStr "RGGB"); ("crops", VArr [VInt 0; VInt 6; VInt 2; VInt 0])].
(** data/cameras/olympus/e-pl3.toml *)
Definition cam_272 : table :=
  [("make", VStr "OLYMPUS IMAGING CORP."); ("model", VStr "E-PL3"); ("clean_make", VStr "Olympus"); ("clean_model", VStr "E-PL3"); ("blackpoint", VInt 64); ("whitepoint", VInt 3700); ("color_matrix", VArr [VInt 7575; VInt (-2159); VInt (-571); VInt (-3722); VInt 11341; VInt 2725; VInt (-1434); VInt 2819; VInt 6271]); ("color_pattern", VStr "RGGB"); ("crops", VArr [VInt 0; VInt 30; VInt 0; VInt 0])].
(** data/cameras/olympus/e-pl5.toml *)
Definition cam_273 : table :=
  [("make", VStr "OLYMPUS IMAGING CORP."); ("model", VStr "E-PL5"); ("clean_make", VStr "Olympus"); ("clean_model", VStr "E-PL5"); ("blackpoint", VInt 0); ("whitepoint", VInt 4000); ("color_matrix", VArr [VInt 8380; VInt (-2630); VInt (-639); VInt (-2887); VInt 10725; VInt 2496; VInt (-627); VInt 1427; VInt 5438]); ("color_pattern", VStr "RGGB"); ("crops", VArr [VInt 8; VInt 24; VInt 8; VInt 8])].
(** data/cameras/olympus/e-pl6.toml *)
Definition cam_274 : table :=
  [("make", VStr "OLYMPUS IMAGING CORP."); ("model", VStr "E-PL6"); ("clean_make", VStr "Olympus"); ("clean_model", VStr "E-PL6"); ("blackpoint", VInt 254); ("whitepoint", VInt 4000); ("color_matrix", VArr [VInt 8380; VInt (-2630); VInt (-639); VInt (-2887); VInt 10725; VInt 2496; VInt (-627); VInt 1427; VInt 5438]); ("color_pattern", VStr "RGGB"); ("crops", VArr [VInt 8; VInt 24; VInt 8; VInt 8])].
(** data/cameras/olympus/e-pl7.toml *)
Definition cam_275 : table :=
  [("make", VStr "OLYMPUS IMAGING CORP."); ("model", VStr "E-PL7"); ("clean_make", VStr "Olympus"); ("clean_model", VStr "E-PL7"); ("blackpoint", VInt 254); ("whitepoint", VInt 4000); ("color_matrix", VArr [VInt 9197; VInt (-3190); VInt (-659); VInt (-2606); VInt 10830; VInt 2039; VInt (-458); VInt 1250; VInt 5458]); ("color_pattern", VStr "RGGB"); ("crops", VArr [VInt 8; VInt 24; VInt 8; VInt 8])].
(** data/cameras/olympus/e-pm1.toml *)
Definition cam_276 : table :=
  [("make", VStr "OLYMPUS IMAGING CORP."); ("model", VStr "E-PM1"); ("clean_make", VStr "Olympus"); ("clean_model", VStr "E-PM1"); ("blackpoint", VInt 64); ("whitepoint", VInt 4011); ("color_matrix", VArr [VInt 7575; VInt (-2159); VInt (-571); VInt (-3722); VInt 11341; VInt 2725; VInt (-1434); VInt 2819; VInt 6271]); ("color_pattern", VStr "RGGB"); ("crops", VArr [VInt 0; VInt 24; VInt 0; VInt 0])].
(** data/cameras/olympus/e-pm2.toml *)
Definition cam_277 : table :=
  [("make", VStr "OLYMPUS IMAGING CORP."); ("model", VStr "E-PM2"); ("clean_make", VStr "Olympus"); ("clean_model", VStr "E-PM2"); ("blackpoint", VInt 0); ("whitepoint", VInt 4000); ("color_matrix", VArr [VInt 8380; VInt (-2630); VInt (-639); VInt (-2887); VInt 10725; VInt 2496; VInt (-627); VInt 1427; VInt 5438]); ("color_pattern", VStr "RGGB"); ("crops", VArr [VInt 8; VInt 24; VInt 8; VInt 8])].
(** data/cameras/olympus/e620.toml *)
Definition cam_278 : table :=
  [("make", VStr "OLYMPUS IMAGING CORP."); ("model", VStr "E-620"); ("clean_make", VStr "Olympus"); ("clean_model", VStr "E-620"); ("blackpoint", VInt 65); ("whitepoint", VInt 4015); ("color_matrix", VArr [VInt 8453; VInt (-2198); VInt (-1092); VInt (-7609); VInt 15681; VInt 2008; VInt (-1725); VInt 2337; VInt 7824]); ("color_pattern", VStr "BGGR"); ("crops", VArr [VInt 0; VInt 4; VInt 12; VInt 0])].
(** data/cameras/olympus/penf.toml *)
Definition cam_279 : table :=
  [("make", VStr "OLYMPUS CORPORATION"); ("model", VStr "PEN-F"); ("clean_make", VStr "Olympus"); ("clean_model", VStr "PEN-F"); ("blackpoint", VInt 242); ("whitepoint", VInt 4000); ("color_matrix", VArr [VInt 9476; VInt (-3182); VInt (-765); VInt (-2613); VInt 10958; VInt 1893; VInt (-449); VInt 1315; VInt 5268]); ("color_pattern", VStr "RGGB"); ("crops", VArr [VInt 0; VInt 0; VInt 0; VInt 0])].
(** data/cameras/olympus/sh-2.toml *)
Definition cam_280 : table :=
  [("make", VStr "OLYMPUS IMAGING CORP."); ("model", VStr "SH-2"); ("clean_make", VStr "OLYMPUS IMAGING CORP."); ("clean_model", VStr "SH-2"); ("blackpoint", VInt 200); ("whitepoint", VInt 4000); ("color_matrix", VArr [VInt 10156; VInt (-3425); VInt (-1077); VInt (-2611); VInt 11177; VInt 1624; VInt (-385); VInt 1592; VInt 5080]); ("color_pattern", VStr "GRBG"); ("crops", VArr [VInt 0; VInt 0; VInt 0; VInt 0])].
(** data/cameras/olympus/sp320.toml *)
Definition cam_281 : table :=
  [("make", VStr "OLYMPUS IMAGING CORP."); ("model", VStr "SP320"); ("clean_make", VStr "Olympus"); ("clean_model", VStr "SP320"); ("blackpoint", VInt 0); ("whitepoint", VInt 4095); ("color_matrix", VArr [VInt 11766; VInt (-4445); VInt (-1067); VInt (-6901); VInt 14421; VInt 2707; VInt (-1029); VInt 1217; VInt 7572]); ("color_pattern", VStr "RGGB"); ("crops", VArr [VInt 0; VInt 0; VInt 0; VInt 0])].
(** data/cameras/olympus/sp350.toml *)
Definition cam_282 : table :=
  [("make", VStr "OLYMPUS IMAGING CORP."); ("model", VStr "SP350"); ("clean_make", VStr "Olympus"); ("clean_model", VStr "SP350"); ("blackpoint", VInt 0); ("whitepoint", VInt 4095); ("color_matrix", VArr [VInt 12078; VInt (-4836); VInt (-1069); VInt (-6671); VInt 14306; VInt 2578; VInt (-786); VInt 939; VInt 7418]); ("color_pattern", VStr "RGGB"); ("crops", VArr [VInt 0; VInt 0; VInt 0; VInt 0])].
(** data/cameras/olympus/sp500uz.toml *)
Definition cam_283 : table :=
  [("make", VStr "OLYMPUS IMAGING CORP."); ("model", VStr "SP500UZ"); ("clean_make", VStr "Olympus"); ("clean_model", VStr "SP500UZ"); ("blackpoint", VInt 0); ("whitepoint", VInt 4095); ("color_matrix", VArr [VInt 9493; VInt (-3415); VInt (-666); VInt (-5211); VInt 12334; VInt 3260; VInt (-1548); VInt 2262; VInt 6482]); ("color_pattern", VStr "GBRG"); ("crops", VArr [VInt 0; VInt 0; VInt 0; VInt 0])].
(** data/cameras/olympus/stylus1-1.toml *)
Definition cam_284 : table :=
  [("make", VStr "OLYMPUS IMAGING CORP."); ("model", VStr "STYLUS1,1s"); ("clean_make", VStr "Olympus"); ("clean_model", VStr "Stylus1"); ("blackpoint", VInt 200); ("whitepoint", VInt 3900); ("color_matrix", VArr [VInt 8360; VInt (-2420); VInt (-880); VInt (-3928); VInt 12353; VInt 1739; VInt (-1381); VInt 2416; VInt 5173]); ("color_pattern", VStr "RGGB"); ("crops", VArr [VInt 0; VInt 14; VInt 0; VInt 0])].
(** data/cameras/olympus/stylus1.toml *)
Definition cam_285 : table :=
  [("make", VStr "OLYMPUS IMAGING CORP."); ("model", VStr "STYLUS1"); ("clean_make", VStr "Olympus"); ("clean_model", VStr "Stylus1"); ("blackpoint", VInt 200); ("whitepoint", VInt 3900); ("color_matrix", VArr [VInt 8360; VInt (-2420); VInt (-880); VInt (-3928); VInt 12353; VInt 1739; VInt (-1381); VInt 2416; VInt 5173]); ("color_pattern", VStr "RGGB"); ("crops", VArr [VInt 0; VInt 14; VInt 0; VInt 0])].
(** data/cameras/olympus/tg-4.toml *)
Definition cam_286 : table :=
  [("make", VStr "OLYMPUS CORPORATION"); ("model", VStr "TG-4"); ("clean_make", VStr "Olympus"); ("clean_model", VStr "TG-4"); ("blackpoint", VInt 302); ("whitepoint", VInt 4000); ("color_matrix", VArr [VInt 11426; VInt (-4159); VInt (-1126); VInt (-2066); VInt 10678; VInt 1593; VInt (-120); VInt 1327; VInt 4998]); ("color_pattern", VStr "GRBG"); ("crops", VArr [VInt 8; VInt 16; VInt 8; VInt 16])].
(** data/cameras/olympus/xz-1.toml *)
Definition cam_287 : table :=
  [("make", VStr "OLYMPUS IMAGING CORP."); ("model", VStr "XZ-1"); ("clean_make", VStr "Olympus"); ("clean_model", VStr "XZ-1"); ("blackpoint", VInt 67); ("whitepoint", VInt 3900); ("color_matrix", VArr [VInt 10901; VInt (-4095); VInt (-1074); VInt (-1141); VInt 9208; VInt 2293; VInt (-62); VInt 1417; VInt 5158]); ("color_pattern", VStr "RGGB"); ("crops", VArr [VInt 0; VInt 0; VInt 2; VInt 0])].
(** data/cameras/olympus/xz-2.toml *)
Definition cam_288 : table :=
  [("make", VStr "OLYMPUS IMAGING CORP."); ("model", VStr "XZ-2"); ("clean_make", VStr "Olympus"); ("clean_model", VStr "XZ-2"); ("blackpoint", VInt 200); ("whitepoint", VInt 3900); ("color_matrix", VArr [VInt 9777; VInt (-3483); VInt (-925); VInt (-2886); VInt 11297; VInt 1800; VInt (-602); VInt 1663; VInt 5134]); ("color_pattern", VStr "RGGB"); ("crops", VArr [VInt 0; VInt 0; VInt 2; VInt 0])].
(** data/cameras/panasonic/fz1000.toml *)
Definition cam_289 : table :=
  [("make", VStr "Panasonic"); ("model", VStr "DMC-FZ1000"); ("clean_make", VStr "Panasonic"); ("clean_model", VStr "DMC-FZ1000"); ("blackpoint", VInt 143); ("whitepoint", VInt 4095); ("color_matrix", VArr [VInt 7830; VInt (-2696); VInt (-763); VInt (-3325); VInt 11667; VInt 1866; VInt (-641); VInt 1712; VInt 4824]); ("color_pattern", VStr "GBRG"); ("modes", VArr [VTable [("mode", VStr "1:1"); ("crops", VArr [VInt 0; VInt 32; VInt 0; VInt 0])]; VTable [("mode", VStr "4:3"); ("crops", VArr [VInt 0; VInt 160; VInt 0; VInt 0])]; VTable [("mode", VStr "3:2"); ("crops", VArr [VInt 0; VInt 0; VInt 0; VInt 0])]; VTable [("mode", VStr "16:9"); ("crops", VArr [VInt 0; VInt 0; VInt 0; VInt 0])]])].
(** data/cameras/panasonic/fz150.toml *)
Definition cam_290 : table :=
  [("make", VStr "Panasonic"); ("model", VStr "DMC-FZ150"); ("clean_make", VStr "Panasonic"); ("clean_model", VStr "DMC-FZ150"); ("blackpoint", VInt 142); ("whitepoint", VInt 3971); ("color_matrix", VArr [VInt 11904; VInt (-4541); VInt (-1189); VInt (-2355); VInt 10899; VInt 1662; VInt (-296); VInt 1586; VInt 4289]); ("color_pattern", VStr "GBRG"); ("modes", VArr [VTable [("mode", VStr "1:1"); ("crops", VArr [VInt 0; VInt 16; VInt 0; VInt 0])]; VTable [("mode", VStr "4:3"); ("crops", VArr [VInt 0; VInt 128; VInt 0; VInt 0])]; VTable [("mode", VStr "3:2"); ("crops", VArr [VInt 0; VInt 128; VInt 0; VInt 0])]; VTable [("mode", VStr "16:9"); ("crops", VArr [VInt 0; VInt 128; VInt 0; VInt 0])]])].
(** data/cameras/panasonic/fz18.toml *)
Definition cam_291 : table :=
  [("make", VStr "Panasonic"); ("model", VStr "DMC-FZ18"); ("clean_make", VStr "Panasonic"); ("clean_model", VStr "DMC-FZ18"); ("blackpoint", VInt 0); ("whitepoint", VInt 3986); ("color_matrix", VArr [VInt 9932; VInt (-3060); VInt (-935); VInt (-5809); VInt 13331; VInt 2753; VInt (-1267); VInt 2155; VInt 5575]); ("color_pattern", VStr "BGGR"); ("modes", VArr [VTable [("mode", VStr "4:3"); ("crops", VArr [VInt 0; VInt 30; VInt 1; VInt 10])]; VTable [("mode", VStr "3:2"); ("crops", VArr [VInt 0; VInt 31; VInt 0; VInt 9])]; VTable [("mode", VStr "16:9"); ("crops", VArr [VInt 0; VInt 31; VInt 0; VInt 9])]])].
(** data/cameras/panasonic/fz200.toml *)
Definition cam_292 : table :=
  [("make", VStr "Panasonic"); ("model", VStr "DMC-FZ200"); ("clean_make", VStr "Panasonic"); ("clean_model", VStr "DMC-FZ200"); ("blackpoint", VInt 142); ("whitepoint", VInt 3971); ("color_matrix", VArr [VInt 8112; VInt (-2563); VInt (-740); VInt (-3730); VInt 11784; VInt 2197; VInt (-941); VInt 2075; VInt 4933]); ("color_pattern", VStr "GBRG"); ("modes", VArr [VTable [("mode", VStr "1:1"); ("crops", VArr [VInt 0; VInt 16; VInt 0; VInt 0])]; VTable [("mode", VStr "4:3"); ("crops", VArr [VInt 0; VInt 128; VInt 4; VInt 0])]; VTable [("mode", VStr "3:2"); ("crops", VArr [VInt 0; VInt 128; VInt 0; VInt 0])]; VTable [("mode", VStr "16:9"); ("crops", VArr [VInt 0; VInt 128; VInt 0; VInt 0])]])].
(** data/cameras/panasonic/fz28.toml *)
Definition cam_293 : table :=
  [("make", VStr "Panasonic"); ("model", VStr "DMC-FZ28"); ("clean_make", VStr "Panasonic"); ("clean_model", VStr "DMC-FZ28"); ("blackpoint", VInt 15); ("whitepoint", VInt 3986); ("color_matrix", VArr [VInt 10109; VInt (-3488); VInt (-993); VInt (-5412); VInt 12812; VInt 2916; VInt (-1305); VInt 2140; VInt 5543]); ("color_pattern", VStr "BGGR"); ("modes", VArr [VTable [("mode", VStr "4:3"); ("crops", VArr [VInt 0; VInt 56; VInt 0; VInt 0])]])].
(** data/cameras/panasonic/fz30.toml *)
Definition cam_294 : table :=
  [("make", VStr "Panasonic"); ("model", VStr "DMC-FZ30"); ("clean_make", VStr "Panasonic"); ("clean_model", VStr "DMC-FZ30"); ("blackpoint", VInt 0); ("whitepoint", VInt 3971); ("color_matrix", VArr [VInt 10976; VInt (-4029); VInt (-1141); VInt (-7918); VInt 15491; VInt 2600; VInt (-1670); VInt 2071; VInt 8246]); ("color_pattern", VStr "RGGB"); ("modes", VArr [VTable [("mode", VStr "4:3"); ("crops", VArr [VInt 0; VInt 16; VInt 0; VInt 0])]])].
(** data/cameras/panasonic/fz300.toml *)
Definition cam_295 : table :=
  [("make", VStr "Panasonic"); ("model", VStr "DMC-FZ300"); ("clean_make", VStr "Panasonic"); ("clean_model", VStr "DMC-FZ300"); ("blackpoint", VInt 143); ("whitepoint", VInt 4095); ("color_matrix", VArr [VInt 8378; VInt (-2798); VInt (-769); VInt (-3068); VInt 11410; VInt 1877; VInt (-538); VInt 1792; VInt 4623]); ("color_pattern", VStr "GBRG"); ("modes", VArr [VTable [("mode", VStr "4:3"); ("crops", VArr [VInt 0; VInt 128; VInt 0; VInt 0])]])].
(** data/cameras/panasonic/fz330.toml *)
Definition cam_296 : table :=
  [("make", VStr "Panasonic"); ("model", VStr "DMC-FZ330"); ("clean_make", VStr "Panasonic"); ("clean_model", VStr "DMC-FZ330"); ("blackpoint", VInt 142); ("whitepoint", VInt 4095); ("color_matrix", VArr [VInt 8378; VInt (-2798); VInt (-769); VInt (-3068); VInt 11410; VInt 1877; VInt (-538); VInt 1792; VInt 4623]); ("color_pattern", VStr "GBRG"); ("modes", VArr [VTable [("mode", VStr "4:3"); ("crops", VArr [VInt 0; VInt 126; VInt 0; VInt 0])]])].
(** data/cameras/panasonic/fz38.toml *)
Definition cam_297 : table :=
  [("make", VStr "Panasonic"); ("model", VStr "DMC-FZ38"); ("clean_make", VStr "Panasonic"); ("clean_model", VStr "DMC-FZ38"); ("blackpoint", VInt 143); ("whitepoint", VInt 3986); ("color_matrix", VArr [VInt 9938; VInt (-2780); VInt (-890); VInt (-4604); VInt 12393; VInt 2480; VInt (-1117); VInt 2304; VInt 4620]); ("color_pattern", VStr "BGGR"); ("modes", VArr [VTable [("mode", VStr "4:3"); ("crops", VArr [VInt 0; VInt 44; VInt 0; VInt 0])]])].
(** data/cameras/panasonic/fz45.toml *)
Definition cam_298 : table :=
  [("make", VStr "Panasonic"); ("model", VStr "DMC-FZ45"); ("clean_make", VStr "Panasonic"); ("clean_model", VStr "DMC-FZ45"); ("blackpoint", VInt 143); ("whitepoint", VInt 3986); ("color_matrix", VArr [VInt 13639; VInt (-5535); VInt (-1371); VInt (-1698); VInt 9633; VInt 2430; VInt 316; VInt 1152; VInt 4108]); ("color_pattern", VStr "GBRG"); ("modes", VArr [VTable [("mode", VStr "4:3"); ("crops", VArr [VInt 0; VInt 58; VInt 10; VInt 0])]; VTable [("mode", VStr "3:2"); ("crops", VArr [VInt 0; VInt 62; VInt 0; VInt 0])]])].
(** data/cameras/panasonic/fz50.toml *)
Definition cam_299 : table :=
  [("make", VStr "Panasonic"); ("model", VStr "DMC-FZ50"); ("clean_make", VStr "Panasonic"); ("clean_model", VStr "DMC-FZ50"); ("blackpoint", VInt 0); ("whitepoint", VInt 3986); ("color_matrix", VArr [VInt 7906; VInt (-2709); VInt (-594); VInt (-6231); VInt 13351; VInt 3220; VInt (-1922); VInt 2631; VInt 6537]); ("color_pattern", VStr "BGGR"); ("modes", VArr [VTable [("mode", VStr "4:3"); ("crops", VArr [VInt 18; VInt 16; VInt 5; VInt 20])]; VTable [("mode", VStr "3:2"); ("crops", VArr [VInt 0; VInt 17; VInt 5; VInt 3])]; VTable [("mode", VStr "16:9"); ("crops", VArr [VInt 0; VInt 15; VInt 5; VInt 3])]])].
(** data/cameras/panasonic/fz70.toml *)
Definition cam_300 : table :=
  [("make", VStr "Panasonic"); ("model", VStr "DMC-FZ70"); ("clean_make", VStr "Panasonic"); ("clean_model", VStr "DMC-FZ70"); ("blackpoint", VInt 163); ("whitepoint", VInt 3941); ("color_matrix", VArr [VInt 11532; VInt (-4324); VInt (-1066); VInt (-2375); VInt 10847; VInt 1749; VInt (-564); VInt 1699; VInt 4351]); ("color_pattern", VStr "RGGB"); ("modes", VArr [VTable [("mode", VStr "1:1"); ("crops", VArr [VInt 0; VInt 0; VInt 0; VInt 0])]; VTable [("mode", VStr "4:3"); ("crops", VArr [VInt 0; VInt 182; VInt 0; VInt 0])]; VTable [("mode", VStr "3:2"); ("crops", VArr [VInt 0; VInt 182; VInt 0; VInt 0])]; VTable [("mode", VStr "16:9"); ("crops", VArr [VInt 0; VInt 182; VInt 0; VInt 0])]])].
(** data/cameras/panasonic/fz72.toml *)
Definition cam_301 : table :=
  [("make", VStr "Panasonic"); ("model", VStr "DMC-FZ72"); ("clean_make", VStr "Panasonic"); ("clean_model", VStr "DMC-FZ72"); ("blackpoint", VInt 144); ("whitepoint", VInt 3956); ("color_matrix", VArr [VInt 11532; VInt (-4324); VInt (-1066); VInt (-2375); VInt 10847; VInt 1749; VInt (-564); VInt 1699; VInt 4351]); ("color_pattern", VStr "RGGB"); ("modes", VArr [VTable [("mode", VStr "1:1"); ("crops", VArr [VInt 0; VInt 0; VInt 0; VInt 0])]; VTable [("mode", VStr "4:3"); ("crops", VArr [VInt 0; VInt 182; VInt 0; VInt 0])]; VTable [("mode", VStr "3:2"); ("crops", VArr [VInt 0; VInt 182; VInt 0; VInt 0])]; VTable [("mode", VStr "16:9"); ("crops", VArr [VInt 0; VInt 182; VInt 0; VInt 0])]])].
(** data/cameras/panasonic/fz8.toml *)
Definition cam_302 : table :=
  [("make", VStr "Panasonic"); ("model", VStr "DMC-FZ8"); ("clean_make", VStr "Panasonic"); ("clean_model", VStr "DMC-FZ8"); ("blackpoint", VInt 0); ("whitepoint", VInt 3986); ("color_matrix", VArr [VInt 8986; VInt (-2755); VInt (-802); VInt (-6341); VInt 13575; VInt 3077; VInt (-1476); VInt 2144; VInt 6379]); ("color_pattern", VStr "RGGB"); ("modes", VArr [VTable [("mode", VStr "4:3"); ("crops", VArr [VInt 0; VInt 31; VInt 1; VInt 5])]])].
(** data/cameras/panasonic/fz82.toml *)
Definition cam_303 : table :=
  [("make", VStr "Panasonic"); ("model", VStr "DC-FZ82"); ("clean_make", VStr "Panasonic"); ("clean_model", VStr "DC-FZ82"); ("blackpoint", VInt 142); ("whitepoint", VInt 4095); ("color_matrix", VArr [VInt 8550; VInt (-2908); VInt (-842); VInt (-3195); VInt 11529; VInt 1881; VInt (-338); VInt 1603; VInt 4631]); ("color_pattern", VStr "GBRG"); ("modes", VArr [VTable [("mode", VStr "4:3"); ("crops", VArr [VInt 0; VInt 128; VInt 0; VInt 0])]])].
(** data/cameras/panasonic/g1.toml *)
Definition cam_304 : table :=
  [("make", VStr "Panasonic"); ("model", VStr "DMC-G1"); ("clean_make", VStr "Panasonic"); ("clean_model", VStr "DMC-G1"); ("blackpoint", VInt 15); ("whitepoint", VInt 3986); ("color_matrix", VArr [VInt 8199; VInt (-2065); VInt (-1056); VInt (-8124); VInt 16156; VInt 2033; VInt (-2458); VInt 3022; VInt 7220]); ("color_pattern", VStr "GBRG"); ("modes", VArr [VTable [("mode", VStr "3:2"); ("crops", VArr [VInt 0; VInt 44; VInt 0; VInt 0])]; VTable [("mode", VStr "16:9"); ("crops", VArr [VInt 0; VInt 32; VInt 0; VInt 0])]; VTable [("mode", VStr "4:3"); ("crops", VArr [VInt 0; VInt 42; VInt 0; VInt 0])]])].
(** data/cameras/panasonic/g10.toml *)
Definition cam_305 : table :=
  [("make", VStr "Panasonic"); ("model", VStr "DMC-G10"); ("clean_make", VStr "Panasonic"); ("clean_model", VStr "DMC-G10"); ("blackpoint", VInt 15); ("whitepoint", VInt 3900); ("color_matrix", VArr [VInt 10113; VInt (-3400); VInt (-1114); VInt (-4765); VInt 12683; VInt 2317; VInt (-377); VInt 1437; VInt 6710]); ("color_pattern", VStr "GBRG"); ("modes", VArr [VTable [("mode", VStr "4:3"); ("crops", VArr [VInt 0; VInt 44; VInt 0; VInt 0])]])].
(** data/cameras/panasonic/g3.toml *)
Definition cam_306 : table :=
  [("make", VStr "Panasonic"); ("model", VStr "DMC-G3"); ("clean_make", VStr "Panasonic"); ("clean_model", VStr "DMC-G3"); ("blackpoint", VInt 143); ("whitepoint", VInt 3956); ("color_matrix", VArr [VInt 6763; VInt (-1919); VInt (-863); VInt (-3868); VInt 11515; VInt 2684; VInt (-1216); VInt 2387; VInt 5879]); ("color_pattern", VStr "GRBG"); ("modes", VArr [VTable [("mode", VStr "1:1"); ("crops", VArr [VInt 0; VInt 200; VInt 0; VInt 0])]; VTable [("mode", VStr "4:3"); ("crops", VArr [VInt 0; VInt 152; VInt 0; VInt 0])]; VTable [("mode", VStr "3:2"); ("crops", VArr [VInt 0; VInt 168; VInt 0; VInt 0])]; VTable [("mode", VStr "16:9"); ("crops", VArr [VInt 0; VInt 168; VInt 0; VInt 0])]])].
(** data/cameras/panasonic/g6.toml *)
Definition cam_307 : table :=
  [("make", VStr "Panasonic"); ("model", VStr "DMC-G6"); ("clean_make", VStr "Panasonic"); ("clean_model", VStr "DMC-G6"); ("blackpoint", VInt 142); ("whitepoint", VInt 3971); ("color_matrix", VArr [VInt 8294; VInt (-2891); VInt (-651); VInt (-3869); VInt 11590; VInt 2595; VInt (-1183); VInt 2267; VInt 5352]); ("color_pattern", VStr "BGGR"); ("modes", VArr [VTable [("mode", VStr "1:1"); ("crops", VArr [VInt 0; VInt 0; VInt 0; VInt 0])]; VTable [("mode", VStr "4:3"); ("crops", VArr [VInt 0; VInt 194; VInt 0; VInt 0])]; VTable [("mode", VStr "3:2"); ("crops", VArr [VInt 0; VInt 194; VInt 0; VInt 0])]; VTable [("mode", VStr "16:9"); ("crops", VArr [VInt 0; VInt 194; VInt 0; VInt 0])]])].
(** data/cameras/panasonic/g7.toml *)
Definition cam_308 : table :=
  [("make", VStr "Panasonic"); ("model", VStr "DMC-G7"); ("clean_make", VStr "Panasonic"); ("clean_model", VStr "DMC-G7"); ("blackpoint", VInt 143); ("whitepoint", VInt 4095); ("color_matrix", VArr [VInt 7610; VInt (-2780); VInt (-576); VInt (-4614); VInt 12195; VInt 2733; VInt (-1375); VInt 2393; VInt 6490]); ("color_pattern", VStr "BGGR"); ("modes", VArr [VTable [("mode", VStr "1:1"); ("crops", VArr [VInt 0; VInt 32; VInt 0; VInt 0])]; VTable [("mode", VStr "4:3"); ("crops", VArr [VInt 0; VInt 208; VInt 0; VInt 0])]; VTable [("mode", VStr "3:2"); ("crops", VArr [VInt 0; VInt 208; VInt 0; VInt 0])]; VTable [("mode", VStr "16:9"); ("crops", VArr [VInt 0; VInt 208; VInt 0; VInt 0])]])].
(** data/cameras/panasonic/g70.toml *)
Definition cam_309 : table :=
  [("make", VStr "Panasonic"); ("model", VStr "DMC-G70"); ("clean_make", VStr "Panasonic"); ("clean_model", VStr "DMC-G70"); ("blackpoint", VInt 143); ("whitepoint", VInt 4095); ("color_matrix", VArr [VInt 7610; VInt (-2780); VInt (-576); VInt (-4614); VInt 12195; VInt 2733; VInt (-1375); VInt 2393; VInt 6490]); ("color_pattern", VStr "BGGR"); ("modes", VArr [VTable [("mode", VStr "1:1"); ("crops", VArr [VInt 0; VInt 32; VInt 0; VInt 0])]; VTable [("mode", VStr "4:3"); ("crops", VArr [VInt 0; VInt 208; VInt 0; VInt 0])]; VTable [("mode", VStr "3:2"); ("crops", VArr [VInt 0; VInt 208; VInt 0; VInt 0])]; VTable [("mode", VStr "16:9"); ("crops", VArr [VInt 0; VInt 208; VInt 0; VInt 0])]])].
(** data/cameras/panasonic/g80.toml *)
Definition cam_310 : table :=
  [("make", VStr "Panasonic"); ("model", VStr "DMC-G80"); ("clean_make", VStr "Panasonic"); ("clean_model", VStr "DMC-G80"); ("blackpoint", VInt 143); ("whitepoint", VInt 4095); ("color_matrix", VArr [VInt 7610; VInt (-2780); VInt (-576); VInt (-4614); VInt 12195; VInt 2733; VInt (-1375); VInt 2393; VInt 6490]); ("color_pattern", VStr "BGGR"); ("modes", VArr [VTable [("mode", VStr "4:3"); ("crops", VArr [VInt 0; VInt 208; VInt 0; VInt 0])]])].
(** data/cameras/panasonic/gf1.toml *)
Definition cam_311 : table :=
  [("make", VStr "Panasonic"); ("model", VStr "DMC-GF1"); ("clean_make", VStr "Panasonic"); ("clean_model", VStr "DMC-GF1"); ("blackpoint", VInt 15); ("whitepoint", VInt 3986); ("color_matrix", VArr [VInt 7888; VInt (-1902); VInt (-1011); VInt (-8106); VInt 16085; VInt 2099; VInt (-2353); VInt 2866; VInt 7330]); ("color_pattern", VStr "GBRG"); ("modes", VArr [VTable [("mode", VStr "1:1"); ("crops", VArr [VInt 0; VInt 44; VInt 0; VInt 0])]; VTable [("mode", VStr "4:3"); ("crops", VArr [VInt 0; VInt 44; VInt 0; VInt 0])]; VTable [("mode", VStr "3:2"); ("crops", VArr [VInt 0; VInt 44; VInt 0; VInt 0])]; VTable [("mode", VStr "16:9"); ("crops", VArr [VInt 0; VInt 44; VInt 0; VInt 0])]])].
(** data/cameras/panasonic/gf3.toml *)
Definition cam_312 : table :=
  [("make", VStr "Panasonic"); ("model", VStr "DMC-GF3"); ("clean_make", VStr "Panasonic"); ("clean_model", VStr "DMC-GF3"); ("blackpoint", VInt 143); ("whitepoint", VInt 3956); ("color_matrix", VArr [VInt 9051; VInt (-2468); VInt (-1204); VInt (-5212); VInt 13276; VInt 2121; VInt (-1197); VInt 2510; VInt 6890]); ("color_pattern", VStr "GBRG"); ("modes", VArr [VTable [("mode", VStr "1:1"); ("crops", VArr [VInt 0; VInt 184; VInt 0; VInt 0])]; VTable [("mode", VStr "4:3"); ("crops", VArr [VInt 0; VInt 72; VInt 0; VInt 0])]; VTable [("mode", VStr "3:2"); ("crops", VArr [VInt 0; VInt 72; VInt 0; VInt 0])]; VTable [("mode", VStr "16:9"); ("crops", VArr [VInt 0; VInt 72; VInt 0; VInt 0])]])].
(** data/cameras/panasonic/gf5.toml *)
Definition cam_313 : table :=
  [("make", VStr "Panasonic"); ("model", VStr "DMC-GF5"); ("clean_make", VStr "Panasonic"); ("clean_model", VStr "DMC-GF5"); ("blackpoint", VInt 143); ("whitepoint", VInt 3956); ("color_matrix", VArr [VInt 8228; VInt (-2945); VInt (-660); VInt (-3938); VInt 11792; VInt 2430; VInt (-1094); VInt 2278; VInt 5793]); ("color_pattern", VStr "GBRG"); ("modes", VArr [VTable [("mode", VStr "1:1"); ("crops", VArr [VInt 0; VInt 16; VInt 0; VInt 0])]; VTable [("mode", VStr "4:3"); ("crops", VArr [VInt 0; VInt 128; VInt 0; VInt 0])]; VTable [("mode", VStr "3:2"); ("crops", VArr [VInt 0; VInt 128; VInt 0; VInt 0])]; VTable [("mode", VStr "16:9"); ("crops", VArr [VInt 0; VInt 128; VInt 0; VInt 0])]])].
(** data/cameras/panasonic/gf6.toml *)
Definition cam_314 : table :=
  [("make", VStr "Panasonic"); ("model", VStr "DMC-GF6"); ("clean_make", VStr "Panasonic"); ("clean_model", VStr "DMC-GF6"); ("blackpoint", VInt 143); ("whitepoint", VInt 3956); ("color_matrix", VArr [VInt 8130; VInt (-2801); VInt (-946); VInt (-3520); VInt 11289; VInt 2552; VInt (-1314); VInt 2511; VInt 5791]); ("color_pattern", VStr "GRBG"); ("modes", VArr [VTable [("mode", VStr "1:1"); ("crops", VArr [VInt 0; VInt 32; VInt 0; VInt 0])]; VTable [("mode", VStr "4:3"); ("crops", VArr [VInt 0; VInt 208; VInt 0; VInt 0])]; VTable [("mode", VStr "3:2"); ("crops", VArr [VInt 0; VInt 208; VInt 0; VInt 0])]; VTable [("mode", VStr "16:9"); ("crops", VArr [VInt 0; VInt 208; VInt 0; VInt 0])]])].
(** data/cameras/panasonic/gf7.toml *)
Definition cam_315 : table :=
  [("make", VStr "Panasonic"); ("model", VStr "DMC-GF7"); ("clean_make", VStr "Panasonic"); ("clean_model", VStr "DMC-GF7"); ("blackpoint", VInt 143); ("whitepoint", VInt 4095); ("color_matrix", VArr [VInt 7610; VInt (-2780); VInt (-576); VInt (-4614); VInt 12195; VInt 2733; VInt (-1375); VInt 2393; VInt 6490]); ("color_pattern", VStr "BGGR"); ("modes", VArr [VTable [("mode", VStr "1:1"); ("crops", VArr [VInt 0; VInt 32; VInt 0; VInt 0])]; VTable [("mode", VStr "4:3"); ("crops", VArr [VInt 0; VInt 208; VInt 0; VInt 0])]; VTable [("mode", VStr "3:2"); ("crops", VArr [VInt 0; VInt 208; VInt 0; VInt 0])]; VTable [("mode", VStr "16:9"); ("crops", VArr [VInt 0; VInt 208; VInt 0; VInt 0])]])].
(** data/cameras/panasonic/gh1.toml *)
Definition cam_316 : table :=
  [("make", VStr "Panasonic"); ("model", VStr "DMC-GH1"); ("clean_make", VStr "Panasonic"); ("clean_model", VStr "DMC-GH1"); ("blackpoint", VInt 15); ("whitepoint", VInt 3986); ("color_matrix", VArr [VInt 6299; VInt (-1466); VInt (-532); VInt (-6535); VInt 13852; VInt 2969; VInt (-2331); VInt 3112; VInt 5984]); ("color_pattern", VStr "GBRG"); ("modes", VArr [VTable [("mode", VStr "4:3"); ("crops", VArr [VInt 0; VInt 44; VInt 0; VInt 0])]; VTable [("mode", VStr "3:2"); ("crops", VArr [VInt 0; VInt 28; VInt 0; VInt 0])]; VTable [("mode", VStr "16:9"); ("crops", VArr [VInt 0; VInt 28; VInt 0; VInt 0])]; VTable [("mode", VStr "1:1"); ("crops", VArr [VInt 0; VInt 44; VInt 0; VInt 0])]])].
(** data/cameras/panasonic/gh2.toml *)
Definition cam_317 : table :=
  [("make", VStr "Panasonic"); ("model", VStr "DMC-GH2"); ("clean_make", VStr "Panasonic"); ("clean_model", VStr "DMC-GH2"); ("blackpoint", VInt 15); ("whitepoint", VInt 3800); ("color_matrix", VArr [VInt 7780; VInt (-2410); VInt (-806); VInt (-3913); VInt 11724; VInt 2484; VInt (-1018); VInt 2390; VInt 5298]); ("color_pattern", VStr "BGGR"); ("modes", VArr [VTable [("mode", VStr "1:1"); ("crops", VArr [VInt 0; VInt 168; VInt 0; VInt 0])]; VTable [("mode", VStr "4:3"); ("crops", VArr [VInt 0; VInt 136; VInt 0; VInt 0])]; VTable [("mode", VStr "3:2"); ("crops", VArr [VInt 0; VInt 216; VInt 0; VInt 0])]; VTable [("mode", VStr "16:9"); ("crops", VArr [VInt 0; VInt 216; VInt 0; VInt 0])]])].
(** data/cameras/panasonic/gh3.toml *)
Definition cam_318 : table :=
  [("make", VStr "Panasonic"); ("model", VStr "DMC-GH3"); ("clean_make", VStr "Panasonic"); ("clean_model", VStr "DMC-GH3"); ("blackpoint", VInt 142); ("whitepoint", VInt 3971); ("color_matrix", VArr [VInt 6559; VInt (-1752); VInt (-491); VInt (-3672); VInt 11407; VInt 2586; VInt (-962); VInt 1875; VInt 5130]); ("color_pattern", VStr "GBRG"); ("modes", VArr [VTable [("mode", VStr "1:1"); ("crops", VArr [VInt 0; VInt 0; VInt 0; VInt 0])]; VTable [("mode", VStr "4:3"); ("crops", VArr [VInt 0; VInt 194; VInt 0; VInt 0])]; VTable [("mode", VStr "3:2"); ("crops", VArr [VInt 0; VInt 194; VInt 0; VInt 0])]; VTable [("mode", VStr "16:9"); ("crops", VArr [VInt 0; VInt 194; VInt 0; VInt 0])]])].
(** data/cameras/panasonic/gh4.toml *)
Definition cam_319 : table :=
  [("make", VStr "Panasonic"); ("model", VStr "DMC-GH4"); ("clean_make", VStr "Panasonic"); ("clean_model", VStr "DMC-GH4"); ("blackpoint", VInt 143); ("whitepoint", VInt 4095); ("color_matrix", VArr [VInt 7122; VInt (-2108); VInt (-512); VInt (-3155); VInt 11201; VInt 2231; VInt (-541); VInt 1423; VInt 5045]); ("color_pattern", VStr "BGGR"); ("modes", VArr [VTable [("mode", VStr "1:1"); ("crops", VArr [VInt 0; VInt 0; VInt 0; VInt 0])]; VTable [("mode", VStr "4:3"); ("crops", VArr [VInt 8; VInt 200; VInt 8; VInt 8])]; VTable [("mode", VStr "3:2"); ("crops", VArr [VInt 8; VInt 200; VInt 8; VInt 8])]; VTable [("mode", VStr "16:9"); ("crops", VArr [VInt 8; VInt 200; VInt 8; VInt 8])]])].
(** data/cameras/panasonic/gh5.toml *)
Definition cam_320 : table :=
  [("make", VStr "Panasonic"); ("model", VStr "DC-GH5"); ("clean_make", VStr "Panasonic"); ("clean_model", VStr "DC-GH5"); ("blackpoint", VInt 144); ("whitepoint", VInt 4095); ("color_matrix", VArr [VInt 7641; VInt (-2336); VInt (-605); VInt (-3218); VInt 11299; VInt 2187; VInt (-485); VInt 1338; VInt 5121]); ("color_pattern", VStr "RGGB"); ("modes", VArr [VTable [("mode", VStr "4:3"); ("crops", VArr [VInt 0; VInt 56; VInt 0; VInt 0])]])].
(** data/cameras/panasonic/gm1.toml *)
Definition cam_321 : table :=
  [("make", VStr "Panasonic"); ("model", VStr "DMC-GM1"); ("clean_make", VStr "Panasonic"); ("clean_model", VStr "DMC-GM1"); ("blackpoint", VInt 143); ("whitepoint", VInt 3956); ("color_matrix", VArr [VInt 6770; VInt (-1895); VInt (-744); VInt (-5232); VInt 13145; VInt 2303; VInt (-1664); VInt 2691; VInt 5703]); ("color_pattern", VStr "BGGR"); ("modes", VArr [VTable [("mode", VStr "1:1"); ("crops", VArr [VInt 0; VInt 0; VInt 0; VInt 0])]; VTable [("mode", VStr "4:3"); ("crops", VArr [VInt 0; VInt 206; VInt 0; VInt 0])]; VTable [("mode", VStr "3:2"); ("crops", VArr [VInt 0; VInt 206; VInt 0; VInt 0])]; VTable [("mode", VStr "16:9"); ("crops", VArr [VInt 0; VInt 206; VInt 0; VInt 0])]])].
(** data/cameras/panasonic/gm1s.toml *)
Definition cam_322 : table :=
  [("make", VStr "Panasonic"); ("model", VStr "DMC-GM1S"); ("clean_make", VStr "Panasonic"); ("clean_model", VStr "DMC-GM1S"); ("blackpoint", VInt 143); ("whitepoint", VInt 4095); ("color_matrix", VArr [VInt 6770; VInt (-1895); VInt (-744); VInt (-5232); VInt 13145; VInt 2303; VInt (-1664); VInt 2691; VInt 5703]); ("color_pattern", VStr "BGGR"); ("modes", VArr [VTable [("mode", VStr "4:3"); ("crops", VArr [VInt 0; VInt 208; VInt 0; VInt 0])]])].
(** data/cameras/panasonic/gm5.toml *)
Definition cam_323 : table :=
  [("make", VStr "Panasonic"); ("model", VStr "DMC-GM5"); ("clean_make", VStr "Panasonic"); ("clean_model", VStr "DMC-GM5"); ("blackpoint", VInt 143); ("whitepoint", VInt 4095); ("color_matrix", VArr [VInt 8238; VInt (-3244); VInt (-679); VInt (-3921); VInt 11814; VInt 2384; VInt (-836); VInt 2022; VInt 5852]); ("color_pattern", VStr "BGGR"); ("modes", VArr [VTable [("mode", VStr "4:3"); ("crops", VArr [VInt 0; VInt 224; VInt 16; VInt 0])]])].
(** data/cameras/panasonic/gx1.toml *)
Definition cam_324 : table :=
  [("make", VStr "Panasonic"); ("model", VStr "DMC-GX1"); ("clean_make", VStr "Panasonic"); ("clean_model", VStr "DMC-GX1"); ("blackpoint", VInt 143); ("whitepoint", VInt 3956); ("color_matrix", VArr [VInt 6763; VInt (-1919); VInt (-863); VInt (-3868); VInt 11515; VInt 2684; VInt (-1216); VInt 2387; VInt 5879]); ("color_pattern", VStr "GRBG"); ("modes", VArr [VTable [("mode", VStr "1:1"); ("crops", VArr [VInt 0; VInt 198; VInt 0; VInt 0])]; VTable [("mode", VStr "4:3"); ("crops", VArr [VInt 0; VInt 154; VInt 0; VInt 0])]; VTable [("mode", VStr "3:2"); ("crops", VArr [VInt 0; VInt 170; VInt 0; VInt 0])]; VTable [("mode", VStr "16:9"); ("crops", VArr [VInt 0; VInt 170; VInt 0; VInt 0])]])].
(** data/cameras/panasonic/gx7.toml *)
Definition cam_325 : table :=
  [("make", VStr "Panasonic"); ("model", VStr "DMC-GX7"); ("clean_make", VStr "Panasonic"); ("clean_model", VStr "DMC-GX7"); ("blackpoint", VInt 143); ("whitepoint", VInt 3956); ("color_matrix", VArr [VInt 7610; VInt (-2780); VInt (-576); VInt (-4614); VInt 12195; VInt 2733; VInt (-1375); VInt 2393; VInt 6490]); ("color_pattern", VStr "BGGR"); ("modes", VArr [VTable [("mode", VStr "1:1"); ("crops", VArr [VInt 0; VInt 32; VInt 0; VInt 0])]; VTable [("mode", VStr "4:3"); ("crops", VArr [VInt 0; VInt 208; VInt 0; VInt 0])]; VTable [("mode", VStr "3:2"); ("crops", VArr [VInt 0; VInt 208; VInt 0; VInt 0])]; VTable [("mode", VStr "16:9"); ("crops", VArr [VInt 0; VInt 208; VInt 0; VInt 0])]])].
(** data/cameras/panasonic/gx8.toml *)
Definition cam_326 : table :=
  [("make", VStr "Panasonic"); ("model", VStr "DMC-GX8"); ("clean_make", VStr "Panasonic"); ("clean_model", VStr "DMC-GX8"); ("blackpoint", VInt 144); ("whitepoint", VInt 4095); ("color_matrix", VArr [VInt 7564; VInt (-2263); VInt (-606); VInt (-3148); VInt 11239; VInt 2177; VInt (-540); VInt 1435; VInt 4853]); ("color_pattern", VStr "GBRG"); ("modes", VArr [VTable [("mode", VStr "4:3"); ("crops", VArr [VInt 0; VInt 64; VInt 0; VInt 0])]])].
(** data/cameras/panasonic/gx80.toml *)
Definition cam_327 : table :=
  [("make", VStr "Panasonic"); ("model", VStr "DMC-GX80"); ("clean_make", VStr "Panasonic"); ("clean_model", VStr "DMC-GX80"); ("blackpoint", VInt 143); ("whitepoint", VInt 4095); ("color_matrix", VArr [VInt 7771; VInt (-3020); VInt (-629); VInt (-4029); VInt 11950; VInt 2345; VInt (-821); VInt 1977; VInt 6119]); ("color_pattern", VStr "BGGR"); ("modes", VArr [VTable [("mode", VStr "4:3"); ("crops", VArr [VInt 0; VInt 126; VInt 0; VInt 0])]])].
(** data/cameras/panasonic/gx800.toml *)
Definition cam_328 : table :=
  [("make", VStr "Panasonic"); ("model", VStr "DC-GX800"); ("clean_make", VStr "Panasonic"); ("clean_model", VStr "DC-GX800"); ("blackpoint", VInt 143); ("whitepoint", VInt 4095); ("color_matrix", VArr [VInt 7610; VInt (-2780); VInt (-576); VInt (-4614); VInt 12195; VInt 2733; VInt (-1375); VInt 2393; VInt 6490]); ("color_pattern", VStr "BGGR"); ("modes", VArr [VTable [("mode", VStr "4:3"); ("crops", VArr [VInt 0; VInt 208; VInt 0; VInt 0])]])].
(** data/cameras/panasonic/l1.toml *)
Definition cam_329 : table :=
  [("make", VStr "Panasonic"); ("model", VStr "DMC-L1"); ("clean_make", VStr "Panasonic"); ("clean_model", VStr "DMC-L1"); ("blackpoint", VInt 0); ("whitepoint", VInt 3986); ("color_matrix", VArr [VInt 8054; VInt (-1885); VInt (-1025); VInt (-8349); VInt 16367; VInt 2040; VInt (-2805); VInt 3542; VInt 7629]); ("color_pattern", VStr "GBRG"); ("modes", VArr [VTable [("mode", VStr "4:3"); ("crops", VArr [VInt 0; VInt 11; VInt 1; VInt 0])]])].
(** data/cameras/panasonic/l10.toml *)
Definition cam_330 : table :=
  [("make", VStr "Panasonic"); ("model", VStr "DMC-L10"); ("clean_make", VStr "Panasonic"); ("clean_model", VStr "DMC-L10"); ("blackpoint", VInt 0); ("whitepoint", VInt 3986); ("color_matrix", VArr [VInt 8025; VInt (-1942); VInt (-1050); VInt (-7920); VInt 15904; VInt 2100; VInt (-2456); VInt 3005; VInt 7039]); ("color_pattern", VStr "GBRG"); ("modes", VArr [VTable [("mode", VStr "4:3"); ("crops", VArr [VInt 0; VInt 28; VInt 1; VInt 0])]])].
(** data/cameras/panasonic/lf1.toml *)
Definition cam_331 : table :=
  [("make", VStr "Panasonic"); ("model", VStr "DMC-LF1"); ("clean_make", VStr "Panasonic"); ("clean_model", VStr "DMC-LF1"); ("blackpoint", VInt 143); ("whitepoint", VInt 3971); ("color_matrix", VArr [VInt 9379; VInt (-3267); VInt (-816); VInt (-3227); VInt 11560; VInt 1881; VInt (-926); VInt 1928; VInt 5340]); ("color_pattern", VStr "RGGB"); ("modes", VArr [VTable [("mode", VStr "1:1"); ("crops", VArr [VInt 0; VInt 16; VInt 0; VInt 0])]; VTable [("mode", VStr "4:3"); ("crops", VArr [VInt 0; VInt 126; VInt 0; VInt 0])]; VTable [("mode", VStr "3:2"); ("crops", VArr [VInt 0; VInt 126; VInt 0; VInt 0])]; VTable [("mode", VStr "16:9"); ("crops", VArr [VInt 0; VInt 126; VInt 0; VInt 0])]])].
(** data/cameras/panasonic/lx1.toml *)
Definition cam_332 : table :=
  [("make", VStr "Panasonic"); ("model", VStr "DMC-LX1"); ("clean_make", VStr "Panasonic"); ("clean_model", VStr "DMC-LX1"); ("blackpoint", VInt 0); ("whitepoint", VInt 3971); ("color_matrix", VArr [VInt 10704; VInt (-4187); VInt (-1230); VInt (-8314); VInt 15952; VInt 2501; VInt (-920); VInt 945; VInt 8927]); ("color_pattern", VStr "RGGB"); ("modes", VArr [VTable [("mode", VStr "16:9"); ("crops", VArr [VInt 0; VInt 16; VInt 0; VInt 6])]])].
(** data/cameras/panasonic/lx10.toml *)
Definition cam_333 : table :=
  [("make", VStr "Panasonic"); ("model", VStr "DMC-LX10"); ("clean_make", VStr "Panasonic"); ("clean_model", VStr "DMC-LX10"); ("blackpoint", VInt 143); ("whitepoint", VInt 4095); ("color_matrix", VArr [VInt 7790; VInt (-2736); VInt (-755); VInt (-3452); VInt 11870; VInt 1769; VInt (-628); VInt 1647; VInt 4898]); ("color_pattern", VStr "GBRG"); ("modes", VArr [VTable [("mode", VStr "3:2"); ("crops", VArr [VInt 0; VInt 0; VInt 0; VInt 0])]])].
(** data/cameras/panasonic/lx100.toml *)
Definition cam_334 : table :=
  [("make", VStr "Panasonic"); ("model", VStr "DMC-LX100"); ("clean_make", VStr "Panasonic"); ("clean_model", VStr "DMC-LX100"); ("blackpoint", VInt 143); ("whitepoint", VInt 4095); ("color_matrix", VArr [VInt 8844; VInt (-3538); VInt (-768); VInt (-3709); VInt 11762; VInt 2200; VInt (-698); VInt 1792; VInt 5220]); ("color_pattern", VStr "BGGR"); ("modes", VArr [VTable [("mode", VStr "1:1"); ("crops", VArr [VInt 0; VInt 144; VInt 0; VInt 0])]; VTable [("mode", VStr "4:3"); ("crops", VArr [VInt 0; VInt 16; VInt 0; VInt 0])]; VTable [("mode", VStr "3:2"); ("crops", VArr [VInt 0; VInt 80; VInt 0; VInt 0])]; VTable [("mode", VStr "16:9"); ("crops", VArr [VInt 0; VInt 96; VInt 0; VInt 0])]])].
(** data/cameras/panasonic/lx2.toml *)
Definition cam_335 : table :=
  [("make", VStr "Panasonic"); ("model", VStr "DMC-LX2"); ("clean_make", VStr "Panasonic"); ("clean_model", VStr "DMC-LX2"); ("blackpoint", VInt 0); ("whitepoint", VInt 3986); ("color_matrix", VArr [VInt 8048; VInt (-2810); VInt (-623); VInt (-6450); VInt 13519; VInt 3272; VInt (-1700); VInt 2146; VInt 7049]); ("color_pattern", VStr "BGGR"); ("modes", VArr [VTable [("mode", VStr "16:9"); ("crops", VArr [VInt 0; VInt 38; VInt 3; VInt 4])]])].
(** data/cameras/panasonic/lx3.toml *)
Definition cam_336 : table :=
  [("make", VStr "Panasonic"); ("model", VStr "DMC-LX3"); ("clean_make", VStr "Panasonic"); ("clean_model", VStr "DMC-LX3"); ("blackpoint", VInt 15); ("whitepoint", VInt 3986); ("color_matrix", VArr [VInt 8128; VInt (-2668); VInt (-655); VInt (-6134); VInt 13307; VInt 3161; VInt (-1782); VInt 2568; VInt 6083]); ("color_pattern", VStr "BGGR"); ("modes", VArr [VTable [("mode", VStr "1:1"); ("crops", VArr [VInt 0; VInt 74; VInt 0; VInt 0])]; VTable [("mode", VStr "4:3"); ("crops", VArr [VInt 0; VInt 58; VInt 0; VInt 0])]; VTable [("mode", VStr "3:2"); ("crops", VArr [VInt 0; VInt 44; VInt 0; VInt 0])]; VTable [("mode", VStr "16:9"); ("crops", VArr [VInt 0; VInt 70; VInt 0; VInt 0])]])].
(** data/cameras/panasonic/lx5.toml *)
Definition cam_337 : table :=
  [("make", VStr "Panasonic"); ("model", VStr "DMC-LX5"); ("clean_make", VStr "Panasonic"); ("clean_model", VStr "DMC-LX5"); ("blackpoint", VInt 143); ("whitepoint", VInt 3986); ("color_matrix", VArr [VInt 10909; VInt (-4295); VInt (-948); VInt (-1333); VInt 9306; VInt 2399; VInt 22; VInt 1738; VInt 4582]); ("color_pattern", VStr "GRBG"); ("modes", VArr [VTable [("mode", VStr "1:1"); ("crops", VArr [VInt 0; VInt 220; VInt 4; VInt 0])]; VTable [("mode", VStr "4:3"); ("crops", VArr [VInt 0; VInt 200; VInt 4; VInt 0])]; VTable [("mode", VStr "3:2"); ("crops", VArr [VInt 0; VInt 74; VInt 4; VInt 0])]; VTable [("mode", VStr "16:9"); ("crops", VArr [VInt 0; VInt 104; VInt 4; VInt 0])]])].
(** data/cameras/panasonic/lx7.toml *)
Definition cam_338 : table :=
  [("make", VStr "Panasonic"); ("model", VStr "DMC-LX7"); ("clean_make", VStr "Panasonic"); ("clean_model", VStr "DMC-LX7"); ("blackpoint", VInt 142); ("whitepoint", VInt 3971); ("color_matrix", VArr [VInt 10148; VInt (-3743); VInt (-991); VInt (-2837); VInt 11366; VInt 1659; VInt (-701); VInt 1893; VInt 4899]); ("color_pattern", VStr "GRBG"); ("modes", VArr [VTable [("mode", VStr "1:1"); ("crops", VArr [VInt 0; VInt 48; VInt 0; VInt 0])]; VTable [("mode", VStr "4:3"); ("crops", VArr [VInt 0; VInt 34; VInt 0; VInt 0])]; VTable [("mode", VStr "3:2"); ("crops", VArr [VInt 0; VInt 128; VInt 0; VInt 0])]; VTable [("mode", VStr "16:9"); ("crops", VArr [VInt 0; VInt 160; VInt 0; VInt 0])]])].
(** data/cameras/panasonic/tz100.toml *)
Definition cam_339 : table :=
  [("make", VStr "Panasonic"); ("model", VStr "DMC-TZ100"); ("clean_make", VStr "Panasonic"); ("clean_model", VStr "DMC-TZ100"); ("blackpoint", VInt 141); ("whitepoint", VInt 4095); ("color_matrix", VArr [VInt 7790; VInt (-2736); VInt (-755); VInt (-3452); VInt 11870; VInt 1769; VInt (-628); VInt 1647; VInt 4898]); ("color_pattern", VStr "GBRG"); ("modes", VArr [VTable [("mode", VStr "3:2"); ("crops", VArr [VInt 0; VInt 0; VInt 0; VInt 0])]])].
(** data/cameras/panasonic/tz60.toml *)
Definition cam_340 : table :=
  [("make", VStr "Panasonic"); ("model", VStr "DMC-TZ60"); ("clean_make", VStr "Panasonic"); ("clean_model", VStr "DMC-TZ60"); ("blackpoint", VInt 145); ("whitepoint", VInt 3956); ("color_matrix", VArr [VInt 8607; VInt (-2822); VInt (-808); VInt (-3755); VInt 11930; VInt 2049; VInt (-820); VInt 2060; VInt 5224]); ("color_pattern", VStr "RGGB"); ("modes", VArr [VTable [("mode", VStr "1:1"); ("crops", VArr [VInt 0; VInt 8; VInt 0; VInt 0])]; VTable [("mode", VStr "4:3"); ("crops", VArr [VInt 0; VInt 128; VInt 0; VInt 0])]; VTable [("mode", VStr "3:2"); ("crops", VArr [VInt 0; VInt 128; VInt 0; VInt 0])]; VTable [("mode", VStr "16:9"); ("crops", VArr [VInt 0; VInt 128; VInt 0; VInt 0])]])].
(** data/cameras/panasonic/tz61.toml *)
Definition cam_341 : table :=
  [("make", VStr "Panasonic"); ("model", VStr "DMC-TZ61"); ("clean_make", VStr "Panasonic"); ("clean_model", VStr "DMC-TZ61"); ("blackpoint", VInt 145); ("whitepoint", VInt 3971); ("color_matrix", VArr [VInt 8607; VInt (-2822); VInt (-808); VInt (-3755); VInt 11930; VInt 2049; VInt (-820); VInt 2060; VInt 5224]); ("color_pattern", VStr "RGGB"); ("modes", VArr [VTable [("mode", VStr "1:1"); ("crops", VArr [VInt 0; VInt 8; VInt 0; VInt 0])]; VTable [("mode", VStr "4:3"); ("crops", VArr [VInt 0; VInt 126; VInt 0; VInt 0])]; VTable [("mode", VStr "3:2"); ("crops", VArr [VInt 0; VInt 126; VInt 0; VInt 0])]; VTable [("mode", VStr "16:9"); ("crops", VArr [VInt 0; VInt 126; VInt 0; VInt 0])]])].
(** data/cameras/panasonic/tz70.toml *)
Definition cam_342 : table :=
  [("make", VStr "Panasonic"); ("model", VStr "DMC-TZ70"); ("clean_make", VStr "Panasonic"); ("clean_model", VStr "DMC-TZ70"); ("blackpoint", VInt 143); ("whitepoint", VInt 3971); ("color_matrix", VArr [VInt 8802; VInt (-3135); VInt (-789); VInt (-3151); VInt 11468; VInt 1904; VInt (-550); VInt 1745; VInt 4810]); ("color_pattern", VStr "RGGB"); ("modes", VArr [VTable [("mode", VStr "1:1"); ("crops", VArr [VInt 0; VInt 16; VInt 0; VInt 0])]; VTable [("mode", VStr "4:3"); ("crops", VArr [VInt 0; VInt 128; VInt 0; VInt 0])]; VTable [("mode", VStr "3:2"); ("crops", VArr [VInt 0; VInt 128; VInt 0; VInt 0])]; VTable [("mode", VStr "16:9"); ("crops", VArr [VInt 0; VInt 128; VInt 0; VInt 0])]])].
(** data/cameras/panasonic/tz71.toml *)
Definition cam_343 : table :=
  [("make", VStr "Panasonic"); ("model", VStr "DMC-TZ71"); ("clean_make", VStr "Panasonic"); ("clean_model", VStr "DMC-TZ71"); ("blackpoint", VInt 142); ("whitepoint", VInt 3971); ("color_matrix", VArr [VInt 8802; VInt (-3135); VInt (-789); VInt (-3151); VInt 11468; VInt 1904; VInt (-550); VInt 1745; VInt 4810]); ("color_pattern", VStr "RGGB"); ("modes", VArr [VTable [("mode", VStr "1:1"); ("crops", VArr [VInt 0; VInt 16; VInt 0; VInt 0])]; VTable [("mode", VStr "4:3"); ("crops", VArr [VInt 0; VInt 128; VInt 0; VInt 0])]; VTable [("mode", VStr "3:2"); ("crops", VArr [VInt 0; VInt 128; VInt 0; VInt 0])]; VTable [("mode", VStr "16:9"); ("crops", VArr [VInt 0; VInt 128; VInt 0; VInt 0])]])].
(** data/cameras/pentax/istD.toml *)
Definition cam_344 : table :=
  [("make", VStr "PENTAX Corporation"); ("model", VStr "PENTAX *ist D"); ("clean_make", VStr "Pentax"); ("clean_model", VStr "*ist D"); ("blackpoint", VInt 128); ("whitepoint", VInt 4095); ("color_matrix", VArr [VInt 9651; VInt (-2059); VInt (-1189); VInt (-8881); VInt 16512; VInt 2487; VInt (-1460); VInt 1345; VInt 10687]); ("color_pattern", VStr "RGGB"); ("crops", VArr [VInt 0; VInt 0; VInt 0; VInt 0])].
(** data/cameras/pentax/istDL.toml *)
Definition cam_345 : table :=
  [("make", VStr "PENTAX Corporation"); ("model", VStr "PENTAX *ist DL"); ("clean_make", VStr "Pentax"); ("clean_model", VStr "*ist DL"); ("blackpoint", VInt 128); ("whitepoint", VInt 4095); ("color_matrix", VArr [VInt 10829; VInt (-2838); VInt (-1115); VInt (-8339); VInt 15817; VInt 2696; VInt (-837); VInt 680; VInt 11939]); ("color_pattern", VStr "RGGB"); ("crops", VArr [VInt 0; VInt 0; VInt 0; VInt 0])].
(** data/cameras/pentax/istDL2.toml *)
Definition cam_346 : table :=
  [("make", VStr "PENTAX Corporation"); ("model", VStr "PENTAX *ist DL2"); ("clean_make", VStr "Pentax"); ("clean_model", VStr "*ist DL2"); ("blackpoint", VInt 127); ("whitepoint", VInt 3950); ("color_matrix", VArr [VInt 10504; VInt (-2438); VInt (-1189); VInt (-8603); VInt 16207; VInt 2531; VInt (-1022); VInt 863; VInt 12242]); ("color_pattern", VStr "RGGB"); ("crops", VArr [VInt 0; VInt 0; VInt 0; VInt 0])].
(** data/cameras/pentax/istDS.toml *)
Definition cam_347 : table :=
  [("make", VStr "PENTAX Corporation"); ("model", VStr "PENTAX *ist DS"); ("clean_make", VStr "Pentax"); ("clean_model", VStr "*ist DS"); ("blackpoint", VInt 128); ("whitepoint", VInt 3950); ("color_matrix", VArr [VInt 10371; VInt (-2333); VInt (-1206); VInt (-8688); VInt 16231; VInt 2602; VInt (-1230); VInt 1116; VInt 11282]); ("color_pattern", VStr "RGGB"); ("crops", VArr [VInt 0; VInt 0; VInt 2; VInt 0])].
(** data/cameras/pentax/k-1.toml *)
Definition cam_348 : table :=
  [("make", VStr "RICOH IMAGING COMPANY, LTD."); ("model", VStr "PENTAX K-1"); ("clean_make", VStr "RICOH IMAGING COMPANY, LTD."); ("clean_model", VStr "PENTAX K-1"); ("blackpoint", VInt 64); ("whitepoint", VInt 16315); ("color_matrix", VArr [VInt 8596; VInt (-2981); VInt (-639); VInt (-4202); VInt 12046; VInt 2431; VInt (-685); VInt 1424; VInt 6122]); ("color_pattern", VStr "RGGB"); ("crops", VArr [VInt 0; VInt 0; VInt 0; VInt 0])].
(** data/cameras/pentax/k-3.toml *)
Definition cam_349 : table :=
  [("make", VStr "RICOH IMAGING COMPANY, LTD."); ("model", VStr "PENTAX K-3"); ("clean_make", VStr "Pentax"); ("clean_model", VStr "K-3"); ("blackpoint", VInt 1); ("whitepoint", VInt 16315); ("color_matrix", VArr [VInt 7415; VInt (-2052); VInt (-721); VInt (-5186); VInt 12788; VInt 2682; VInt (-1446); VInt 2157; VInt 6773]); ("color_pattern", VStr "RGGB"); ("crops", VArr [VInt 0; VInt 36; VInt 0; VInt 4])].
(** data/cameras/pentax/k-3II.toml *)
Definition cam_350 : table :=
  [("make", VStr "RICOH IMAGING COMPANY, LTD."); ("model", VStr "PENTAX K-3 II"); ("clean_make", VStr "Pentax"); ("clean_model", VStr "K-3 II"); ("blackpoint", VInt 0); ("whitepoint", VInt 16253); ("color_matrix", VArr [VInt 7415; VInt (-2052); VInt (-721); VInt (-5186); VInt 12788; VInt 2682; VInt (-1446); VInt 2157; VInt 6773]); ("color_pattern", VStr "RGGB"); ("crops", VArr [VInt 0; VInt 36; VInt 0; VInt 4])].
(** data/cameras/pentax/k-5.toml *)
Definition cam_351 : table :=
  [("make", VStr "PENTAX"); ("model", VStr "PENTAX K-5"); ("clean_make", VStr "Pentax"); ("clean_model", VStr "K-5"); ("blackpoint", VInt 512); ("whitepoint", VInt 15866); ("color_matrix", VArr [VInt 8713; VInt (-2833); VInt (-743); VInt (-4342); VInt 11900; VInt 2772; VInt (-722); VInt 1543; VInt 6247]); ("color_pattern", VStr "BGGR"); ("crops", VArr [VInt 0; VInt 34; VInt 0; VInt 12])].
(** data/cameras/pentax/k-5II.toml *)
Definition cam_352 : table :=
  [("make", VStr "PENTAX"); ("model", VStr "PENTAX K-5 II"); ("clean_make", VStr "Pentax"); ("clean_model", VStr "K-5 II"); ("blackpoint", VInt 256); ("whitepoint", VInt 16124); ("color_matrix", VArr [VInt 8170; VInt (-2725); VInt (-639); VInt (-4440); VInt 12017; VInt 2744; VInt (-771); VInt 1465; VInt 6599]); ("color_pattern", VStr "BGGR"); ("crops", VArr [VInt 0; VInt 34; VInt 0; VInt 12])].
(** data/cameras/pentax/k-5IIs.toml *)
Definition cam_353 : table :=
  [("make", VStr "PENTAX"); ("model", VStr "PENTAX K-5 II s"); ("clean_make", VStr "Pentax"); ("clean_model", VStr "K-5 II s"); ("blackpoint", VInt 129); ("whitepoint", VInt 16253); ("color_matrix", VArr [VInt 8170; VInt (-2725); VInt (-639); VInt (-4440); VInt 12017; VInt 2744; VInt (-771); VInt 1465; VInt 6599]); ("color_pattern", VStr "BGGR"); ("crops", VArr [VInt 0; VInt 34; VInt 0; VInt 12])].
(** data/cameras/pentax/k-7.toml *)
Definition cam_354 : table :=
  [("make", VStr "PENTAX"); ("model", VStr "PENTAX K-7"); ("clean_make", VStr "Pentax"); ("clean_model", VStr "K-7"); ("blackpoint", VInt 0); ("whitepoint", VInt 4095); ("color_matrix", VArr [VInt 9142; VInt (-2947); VInt (-678); VInt (-8648); VInt 16967; VInt 1663; VInt (-2224); VInt 2898; VInt 8615]); ("color_pattern", VStr "BGGR"); ("crops", VArr [VInt 0; VInt 64; VInt 32; VInt 0])].
(** data/cameras/pentax/k-70.toml *)
Definition cam_355 : table :=
  [("make", VStr "RICOH IMAGING COMPANY, LTD."); ("model", VStr "PENTAX K-70"); ("clean_make", VStr "RICOH IMAGING COMPANY, LTD."); ("clean_model", VStr "PENTAX K-70"); ("blackpoint", VInt 64); ("whitepoint", VInt 16315); ("color_matrix", VArr [VInt 8766; VInt (-3149); VInt (-747); VInt (-3976); VInt 11943; VInt 2292; VInt (-517); VInt 1259; VInt 5552]); ("color_pattern", VStr "RGGB"); ("crops", VArr [VInt 0; VInt 0; VInt 0; VInt 0])].
(** data/cameras/pentax/k-m.toml *)
Definition cam_356 : table :=
  [("make", VStr "PENTAX"); ("model", VStr "PENTAX K-m"); ("clean_make", VStr "Pentax"); ("clean_model", VStr "K-m"); ("blackpoint", VInt 0); ("whitepoint", VInt 4095); ("color_matrix", VArr [VInt 11057; VInt (-3604); VInt (-1155); VInt (-5152); VInt 13046; VInt 2329; VInt (-282); VInt 375; VInt 8104]); ("color_pattern", VStr "RGGB"); ("crops", VArr [VInt 0; VInt 36; VInt 8; VInt 0])].
(** data/cameras/pentax/k-r.toml *)
Definition cam_357 : table :=
  [("make", VStr "PENTAX"); ("model", VStr "PENTAX K-r"); ("clean_make", VStr "Pentax"); ("clean_model", VStr "K-r"); ("blackpoint", VInt 129); ("whitepoint", VInt 3964); ("color_matrix", VArr [VInt 9895; VInt (-3077); VInt (-850); VInt (-5304); VInt 13035; VInt 2521; VInt (-883); VInt 1768; VInt 6936]); ("color_pattern", VStr "BGGR"); ("crops", VArr [VInt 2; VInt 44; VInt 0; VInt 2])].
(** data/cameras/pentax/k-s1.toml *)
Definition cam_358 : table :=
  [("make", VStr "RICOH IMAGING COMPANY, LTD."); ("model", VStr "PENTAX K-S1"); ("clean_make", VStr "Pentax"); ("clean_model", VStr "K-S1"); ("blackpoint", VInt 32); ("whitepoint", VInt 4062); ("color_matrix", VArr [VInt 8512; VInt (-3211); VInt (-787); VInt (-4167); VInt 11966; VInt 2487; VInt (-638); VInt 1288; VInt 6054]); ("color_pattern", VStr "RGGB"); ("crops", VArr [VInt 0; VInt 0; VInt 0; VInt 0])].
(** data/cameras/pentax/k-s2.toml *)
Definition cam_359 : table :=
  [("make", VStr "RICOH IMAGING COMPANY, LTD."); ("model", VStr "PENTAX K-S2"); ("clean_make", VStr "Pentax"); ("clean_model", VStr "K-S2"); ("blackpoint", VInt 16); ("whitepoint", VInt 4079); ("color_matrix", VArr [VInt 52900; VInt (-16627); VInt (-7529); VInt (-25443); VInt 80936; VInt 11071; VInt (-5585); VInt 9879; VInt 41775]); ("color_pattern", VStr "RGGB"); ("crops", VArr [VInt 0; VInt 0; VInt 0; VInt 0])].
(** data/cameras/pentax/k-x.toml *)
Definition cam_360 : table :=
  [("make", VStr "PENTAX"); ("model", VStr "PENTAX K-x"); ("clean_make", VStr "Pentax"); ("clean_model", VStr "K-x"); ("blackpoint", VInt 48); ("whitepoint", VInt 4095); ("color_matrix", VArr [VInt 8843; VInt (-2837); VInt (-625); VInt (-5025); VInt 12644; VInt 2668; VInt (-411); VInt 1234; VInt 7410]); ("color_pattern", VStr "BGGR"); ("crops", VArr [VInt 0; VInt 44; VInt 2; VInt 0])].
(** data/cameras/pentax/k100.toml *)
Definition cam_361 : table :=
  [("make", VStr "PENTAX Corporation"); ("model", VStr "PENTAX K100D"); ("clean_make", VStr "Pentax"); ("clean_model", VStr "K100D"); ("blackpoint", VInt 128); ("whitepoint", VInt 3950); ("color_matrix", VArr [VInt 11095; VInt (-3157); VInt (-1324); VInt (-8377); VInt 15834; VInt 2720; VInt (-1108); VInt 947; VInt 11688]); ("color_pattern", VStr "RGGB"); ("crops", VArr [VInt 0; VInt 0; VInt 0; VInt 0])].
(** data/cameras/pentax/k100dsuper.toml *)
Definition cam_362 : table :=
  [("make", VStr "PENTAX Corporation"); ("model", VStr "PENTAX K100D Super"); ("clean_make", VStr "Pentax"); ("clean_model", VStr "K100D Super"); ("blackpoint", VInt 127); ("whitepoint", VInt 4095); ("color_matrix", VArr [VInt 11095; VInt (-3157); VInt (-1324); VInt (-8377); VInt 15834; VInt 2720; VInt (-1108); VInt 947; VInt 11688]); ("color_pattern", VStr "RGGB"); ("crops", VArr [VInt 0; VInt 0; VInt 0; VInt 0])].
(** data/cameras/pentax/k10d.toml *)
Definition cam_363 : table :=
  [("make", VStr "PENTAX Corporation"); ("model", VStr "PENTAX K10D"); ("clean_make", VStr "Pentax"); ("clean_model", VStr "K10D"); ("blackpoint", VInt 0); ("whitepoint", VInt 4095); ("color_matrix", VArr [VInt 9566; VInt (-2863); VInt (-803); VInt (-7170); VInt 15172; VInt 2112; VInt (-818); VInt 803; VInt 9705]); ("color_pattern", VStr "RGGB"); ("crops", VArr [VInt 0; VInt 48; VInt 16; VInt 0])].
(** data/cameras/pentax/k110d.toml *)
Definition cam_364 : table :=
  [("make", VStr "PENTAX Corporation"); ("model", VStr "PENTAX K110D"); ("clean_make", VStr "Pentax"); ("clean_model", VStr "K110D"); ("blackpoint", VInt 127); ("whitepoint", VInt 4095); ("color_matrix", VArr [VInt 11095; VInt (-3157); VInt (-1324); VInt (-8377); VInt 15834; VInt 2720; VInt (-1108); VInt 947; VInt 11688]); ("color_pattern", VStr "RGGB"); ("crops", VArr [VInt 0; VInt 0; VInt 0; VInt 0])].
(** data/cameras/pentax/k200d.toml *)
Definition cam_365 : table :=
  [("make", VStr "PENTAX Corporation"); ("model", VStr "PENTAX K200D"); ("clean_make", VStr "Pentax"); ("clean_model", VStr "K200D"); ("blackpoint", VInt 0); ("whitepoint", VInt 4095); ("color_matrix", VArr [VInt 9186; VInt (-2678); VInt (-907); VInt (-8693); VInt 16517; VInt 2260; VInt (-1129); VInt 1094; VInt 8524]); ("color_pattern", VStr "RGGB"); ("crops", VArr [VInt 0; VInt 56; VInt 20; VInt 0])].
(** data/cameras/pentax/k20d.toml *)
Definition cam_366 : table :=
  [("make", VStr "PENTAX Corporation"); ("model", VStr "PENTAX K20D"); ("clean_make", VStr "Pentax"); ("clean_model", VStr "K20D"); ("blackpoint", VInt 0); ("whitepoint", VInt 4095); ("color_matrix", VArr [VInt 9427; VInt (-2714); VInt (-868); VInt (-7493); VInt 16092; VInt 1373; VInt (-2199); VInt 3264; VInt 7180]); ("color_pattern", VStr "BGGR"); ("crops", VArr [VInt 0; VInt 176; VInt 12; VInt 0])].
(** data/cameras/pentax/optios4.toml *)
Definition cam_367 : table :=
  [("make", VStr "Pentax"); ("model", VStr "Optio S4"); ("clean_make", VStr "Pentax"); ("clean_model", VStr "Optio S4"); ("blackpoint", VInt 0); ("whitepoint", VInt 3968); ("color_matrix", VArr [VInt 15591; VInt (-6402); VInt (-1592); VInt (-5365); VInt 13198; VInt 2168; VInt (-1300); VInt 1824; VInt 5075]); ("color_pattern", VStr "RGGB"); ("crops", VArr [VInt 0; VInt 22; VInt 0; VInt 0]); ("filesize", VInt 6114240); ("raw_width", VInt 2346); ("raw_height", VInt 1737); ("hints", VArr [VStr "12le_16bitaligned"])].
(** data/cameras/phase_one/iq250.toml *)
Definition cam_368 : table :=
  [("make", VStr "Phase One A/S"); ("model", VStr "IQ250"); ("clean_make", VStr "Phase One"); ("clean_model", VStr "IQ250"); ("blackpoint", VInt 1024); ("whitepoint", VInt 65535); ("color_matrix", VArr [VInt 3984; VInt 0; VInt 0; VInt 0; VInt 10000; VInt 0; VInt 0; VInt 0; VInt 7666]); ("color_pattern", VStr "RGGB"); ("crops", VArr [VInt 108; VInt 0; VInt 0; VInt 92])].
(** data/cameras/phase_one/p30.toml *)
Definition cam_369 : table :=
  [("make", VStr "Phase One A/S"); ("model", VStr "P30"); ("clean_make", VStr "Phase One A/S"); ("clean_model", VStr "P30"); ("blackpoint", VInt 0); ("whitepoint", VInt 65535); ("color_matrix", VArr [VInt 4516; VInt (-245); VInt (-37); VInt (-7020); VInt 14976; VInt 2173; VInt (-3206); VInt 4671; VInt 7087]); ("color_pattern", VStr "GRBG"); ("crops", VArr [VInt 22; VInt 20; VInt 28; VInt 40])].
(** data/cameras/phase_one/p65.toml *)
Definition cam_370 : table :=
  [("make", VStr "Phase One A/S"); ("model", VStr "P65+"); ("clean_make", VStr "Phase One A/S"); ("clean_model", VStr "P65+"); ("blackpoint", VInt 0); ("whitepoint", VInt 65535); ("color_matrix", VArr [VInt 8035; VInt 435; VInt (-962); VInt (-6001); VInt 13872; VInt 2320; VInt (-1159); VInt 3065; VInt 5434]); ("color_pattern", VStr "RGGB"); ("crops", VArr [VInt 6; VInt 16; VInt 32; VInt 46])].
(** data/cameras/samsung/ex1.toml *)
Definition cam_371 : table :=
  [("make", VStr "SAMSUNG"); ("model", VStr "EX1"); ("clean_make", VStr "Samsung"); ("clean_model", VStr "EX1"); ("blackpoint", VInt 0); ("whitepoint", VInt 15600); ("color_matrix", VArr [VInt 8898; VInt (-2498); VInt (-994); VInt (-3144); VInt 11328; VInt 2066; VInt (-760); VInt 1381; VInt 4576]); ("color_pattern", VStr "RGGB"); ("crops", VArr [VInt 2; VInt 8; VInt 22; VInt 0])].
(** data/cameras/samsung/ex2f.toml *)
Definition cam_372 : table :=
  [("make", VStr "SAMSUNG"); ("model", VStr "EX2F"); ("clean_make", VStr "Samsung"); ("clean_model", VStr "EX2F"); ("blackpoint", VInt 0); ("whitepoint", VInt 4095); ("color_matrix", VArr [VInt 10648; VInt (-3897); VInt (-1055); VInt (-2022); VInt 10573; VInt 1668; VInt (-492); VInt 1611; VInt 4742]); ("color_pattern", VStr "RGGB"); ("crops", VArr [VInt 12; VInt 148; VInt 18; VInt 22])].
(** data/cameras/samsung/galaxy_nx.toml *)
Definition cam_373 : table :=
  [("make", VStr "SAMSUNG"); ("model", VStr "EK-GN120"); ("clean_make", VStr "Samsung"); ("clean_model", VStr "EK-GN120"); ("blackpoint", VInt 0); ("whitepoint", VInt 4095); ("color_matrix", VArr [VInt 7557; VInt (-2522); VInt (-739); VInt (-4679); VInt 12949; VInt 1894; VInt (-840); VInt 1777; VInt 5311]); ("color_pattern", VStr "GRBG"); ("crops", VArr [VInt 25; VInt 11; VInt 29; VInt 45])].
(** data/cameras/samsung/nx1.toml *)
Definition cam_374 : table :=
  [("make", VStr "SAMSUNG"); ("model", VStr "NX1"); ("clean_make", VStr "Samsung"); ("clean_model", VStr "NX1"); ("blackpoint", VInt 128); ("whitepoint", VInt 16100); ("color_matrix", VArr [VInt 10686; VInt (-4042); VInt (-1052); VInt (-3595); VInt 13238; VInt 276; VInt (-464); VInt 1259; VInt 5931]); ("color_pattern", VStr "GRBG"); ("crops", VArr [VInt 0; VInt 0; VInt 0; VInt 0])].
(** data/cameras/samsung/nx10.toml *)
Definition cam_375 : table :=
  [("make", VStr "SAMSUNG"); ("model", VStr "NX10"); ("clean_make", VStr "Samsung"); ("clean_model", VStr "NX10"); ("blackpoint", VInt 3); ("whitepoint", VInt 3750); ("color_matrix", VArr [VInt 10332; VInt (-3234); VInt (-1168); VInt (-6111); VInt 14639; VInt 1520; VInt (-1352); VInt 2647; VInt 8331]); ("color_pattern", VStr "BGGR"); ("crops", VArr [VInt 8; VInt 85; VInt 48; VInt 17])].
(** data/cameras/samsung/nx100.toml *)
Definition cam_376 : table :=
  [("make", VStr "SAMSUNG"); ("model", VStr "NX100"); ("clean_make", VStr "Samsung"); ("clean_model", VStr "NX100"); ("blackpoint", VInt 3); ("whitepoint", VInt 3750); ("color_matrix", VArr [VInt 10332; VInt (-3234); VInt (-1168); VInt (-6111); VInt 14639; VInt 1520; VInt (-1352); VInt 2647; VInt 8331]); ("color_pattern", VStr "BGGR"); ("crops", VArr [VInt 8; VInt 85; VInt 48; VInt 17])].
(** data/cameras/samsung/nx1000.toml *)
Definition cam_377 : table :=
  [("make", VStr "SAMSUNG"); ("model", VStr "NX1000"); ("clean_make", VStr "Samsung"); ("clean_model", VStr "NX1000"); ("blackpoint", VInt 0); ("whitepoint", VInt 3750); ("color_matrix", VArr [VInt 6933; VInt (-2268); VInt (-753); VInt (-4921); VInt 13387; VInt 1647; VInt (-803); VInt 1641; VInt 6096]); ("color_pattern", VStr "GRBG"); ("crops", VArr [VInt 17; VInt 71; VInt 55; VInt 89]); ("hints", VArr [VStr "little_endian"])].
(** data/cameras/samsung/nx11.toml *)
Definition cam_378 : table :=
  [("make", VStr "SAMSUNG"); ("model", VStr "NX11"); ("clean_make", VStr "Samsung"); ("clean_model", VStr "NX11"); ("blackpoint", VInt 3); ("whitepoint", VInt 3750); ("color_matrix", VArr [VInt 10332; VInt (-3234); VInt (-1168); VInt (-6111); VInt 14639; VInt 1520; VInt (-1352); VInt 2647; VInt 8331]); ("color_pattern", VStr "BGGR"); ("crops", VArr [VInt 8; VInt 85; VInt 48; VInt 17])].
(** data/cameras/samsung/nx20.toml *)
Definition cam_379 : table :=
  [("make", VStr "SAMSUNG"); ("model", VStr "NX20"); ("clean_make", VStr "Samsung"); ("clean_model", VStr "NX20"); ("blackpoint", VInt 0); ("whitepoint", VInt 3750); ("color_matrix", VArr [VInt 6933; VInt (-2268); VInt (-753); VInt (-4921); VInt 13387; VInt 1647; VInt (-803); VInt 1641; VInt 6096]); ("color_pattern", VStr "GRBG"); ("crops", VArr [VInt 17; VInt 71; VInt 55; VInt 89]); ("hints", VArr [VStr "little_endian"])].
(** data/cameras/samsung/nx200.toml *)
Definition cam_380 : table :=
  [("make", VStr "SAMSUNG"); ("model", VStr "NX200"); ("clean_make", VStr "Samsung"); ("clean_model", VStr "NX200"); ("blackpoint", VInt 0); ("whitepoint", VInt 3750); ("color_matrix", VArr [VInt 6933; VInt (-2268); VInt (-753); VInt (-4921); VInt 13387; VInt 1647; VInt (-803); VInt 1641; VInt 6096]); ("color_pattern", VStr "GRBG"); ("crops", VArr [VInt 17; VInt 71; VInt 55; VInt 89])].
(** data/cameras/samsung/nx2000.toml *)
Definition cam_381 : table :=
  [("make", VStr "SAMSUNG"); ("model", VStr "NX2000"); ("clean_make", VStr "Samsung"); ("clean_model", VStr "NX2000"); ("blackpoint", VInt 0); ("whitepoint", VInt 4095); ("color_matrix", VArr [VInt 7557; VInt (-2522); VInt (-739); VInt (-4679); VInt 12949; VInt 1894; VInt (-840); VInt 1777; VInt 5311]); ("color_pattern", VStr "GRBG"); ("crops", VArr [VInt 25; VInt 11; VInt 29; VInt 45])].
(** data/cameras/samsung/nx210.toml *)
Definition cam_382 : table :=
  [("make", VStr "SAMSUNG"); ("model", VStr "NX210"); ("clean_make", VStr "Samsung"); ("clean_model", VStr "NX210"); ("blackpoint", VInt 0); ("whitepoint", VInt 3750); ("color_matrix", VArr [VInt 6933; VInt (-2268); VInt (-753); VInt (-4921); VInt 13387; VInt 1647; VInt (-803); VInt 1641; VInt 6096]); ("color_pattern", VStr "GRBG"); ("crops", VArr [VInt 17; VInt 71; VInt 55; VInt 89]); ("hints", VArr [VStr "little_endian"])].
(** data/cameras/samsung/nx30.toml *)
Definition cam_383 : table :=
  [("make", VStr "SAMSUNG"); ("model", VStr "NX30"); ("clean_make", VStr "Samsung"); ("clean_model", VStr "NX30"); ("blackpoint", VInt 0); ("whitepoint", VInt 4095); ("color_matrix", VArr [VInt 7557; VInt (-2522); VInt (-739); VInt (-4679); VInt 12949; VInt 1894; VInt (-840); VInt 1777; VInt 5311]); ("color_pattern", VStr "GRBG"); ("crops", VArr [VInt 25; VInt 11; VInt 29; VInt 45])].
(** data/cameras/samsung/nx300.toml *)
Definition cam_384 : table :=
  [("make", VStr "SAMSUNG"); ("model", VStr "NX300"); ("clean_make", VStr "Samsung"); ("clean_model", VStr "NX300"); ("blackpoint", VInt 0); ("whitepoint", VInt 4095); ("color_matrix", VArr [VInt 7557; VInt (-2522); VInt (-739); VInt (-4679); VInt 12949; VInt 1894; VInt (-840); VInt 1777; VInt 5311]); ("color_pattern", VStr "GRBG"); ("crops", VArr [VInt 25; VInt 11; VInt 29; VInt 45])].
(** data/cameras/samsung/nx3000.toml *)
Definition cam_385 : table :=
  [("make", VStr "SAMSUNG"); ("model", VStr "NX3000"); ("clean_make", VStr "Samsung"); ("clean_model", VStr "NX3000"); ("blackpoint", VInt 0); ("whitepoint", VInt 4095); ("color_matrix", VArr [VInt 8060; VInt (-2933); VInt (-761); VInt (-4504); VInt 12890; VInt 1762; VInt (-630); VInt 1489; VInt 5227]); ("color_pattern", VStr "GRBG"); ("crops", VArr [VInt 42; VInt 32; VInt 24; VInt 96])].
(** data/cameras/samsung/nx300m.toml *)
Definition cam_386 : table :=
  [("make", VStr "SAMSUNG"); ("model", VStr "NX300M"); ("clean_make", VStr "Samsung"); ("clean_model", VStr "NX300M"); ("blackpoint", VInt 0); ("whitepoint", VInt 4095); ("color_matrix", VArr [VInt 7557; VInt (-2522); VInt (-739); VInt (-4679); VInt 12949; VInt 1894; VInt (-840); VInt 1777; VInt 5311]); ("color_pattern", VStr "GRBG"); ("crops", VArr [VInt 25; VInt 11; VInt 29; VInt 45])].
(** data/cameras/samsung/nx500.toml *)
Definition cam_387 : table :=
  [("make", VStr "SAMSUNG"); ("model", VStr "NX500"); ("clean_make", VStr "Samsung"); ("clean_model", VStr "NX500"); ("blackpoint", VInt 128); ("whitepoint", VInt 16100); ("color_matrix", VArr [VInt 10686; VInt (-4042); VInt (-1052); VInt (-3595); VInt 13238; VInt 276; VInt (-464); VInt 1259; VInt 5931]); ("color_pattern", VStr "GRBG"); ("crops", VArr [VInt 0; VInt 0; VInt 0; VInt 0])].
(** data/cameras/sony/a100.toml *)
Definition cam_388 : table :=
  [("make", VStr "SONY"); ("model", VStr "DSLR-A100"); ("clean_make", VStr "Sony"); ("clean_model", VStr "DSLR-A100"); ("blackpoint", VInt 0); ("whitepoint", VInt 4095); ("color_matrix", VArr [VInt 9437; VInt (-2811); VInt (-774); VInt (-8405); VInt 16215; VInt 2290; VInt (-710); VInt 596; VInt 7181]); ("color_pattern", VStr "GRBG"); ("crops", VArr [VInt 0; VInt 0; VInt 0; VInt 0]); ("bps", VInt 8)].
(** data/cameras/sony/a200.toml *)
Definition cam_389 : table :=
  [("make", VStr "SONY"); ("model", VStr "DSLR-A200"); ("clean_make", VStr "Sony"); ("clean_model", VStr "DSLR-A200"); ("blackpoint", VInt 0); ("whitepoint", VInt 4095); ("color_matrix", VArr [VInt 9847; VInt (-3091); VInt (-928); VInt (-8485); VInt 16345; VInt 2225; VInt (-715); VInt 595; VInt 7103]); ("color_pattern", VStr "RGGB"); ("crops", VArr [VInt 0; VInt 0; VInt 0; VInt 0]); ("bps", VInt 8)].
(** data/cameras/sony/a300.toml *)
Definition cam_390 : table :=
  [("make", VStr "SONY"); ("model", VStr "DSLR-A300"); ("clean_make", VStr "Sony"); ("clean_model", VStr "DSLR-A300"); ("blackpoint", VInt 0); ("whitepoint", VInt 4095); ("color_matrix", VArr [VInt 9847; VInt (-3091); VInt (-928); VInt (-8485); VInt 16345; VInt 2225; VInt (-715); VInt 595; VInt 7103]); ("color_pattern", VStr "RGGB"); ("crops", VArr [VInt 0; VInt 0; VInt 0; VInt 0])].
(** data/cameras/sony/a3000.toml *)
Definition cam_391 : table :=
  [("make", VStr "SONY"); ("model", VStr "ILCE-3000"); ("clean_make", VStr "Sony"); ("clean_model", VStr "ILCE-3000"); ("blackpoint", VInt 512); ("whitepoint", VInt 16300); ("color_matrix", VArr [VInt 5991; VInt (-1456); VInt (-455); VInt (-4764); VInt 12135; VInt 2980; VInt (-707); VInt 1425; VInt 6701]); ("color_pattern", VStr "RGGB"); ("crops", VArr [VInt 0; VInt 34; VInt 0; VInt 0]); ("bps", VInt 8)].
(** data/cameras/sony/a33.toml *)
Definition cam_392 : table :=
  [("make", VStr "SONY"); ("model", VStr "SLT-A33"); ("clean_make", VStr "Sony"); ("clean_model", VStr "SLT-A33"); ("blackpoint", VInt 512); ("whitepoint", VInt 16300); ("color_matrix", VArr [VInt 6069; VInt (-1221); VInt (-366); VInt (-5221); VInt 12779; VInt 2734; VInt (-1024); VInt 2066; VInt 6834]); ("color_pattern", VStr "RGGB"); ("crops", VArr [VInt 0; VInt 0; VInt 0; VInt 0]); ("bps", VInt 8)].
(** data/cameras/sony/a330.toml *)
Definition cam_393 : table :=
  [("make", VStr "SONY"); ("model", VStr "DSLR-A330"); ("clean_make", VStr "Sony"); ("clean_model", VStr "DSLR-A330"); ("blackpoint", VInt 0); ("whitepoint", VInt 4095); ("color_matrix", VArr [VInt 9847; VInt (-3091); VInt (-929); VInt (-8485); VInt 16346; VInt 2225; VInt (-714); VInt 595; VInt 7103]); ("color_pattern", VStr "RGGB"); ("crops", VArr [VInt 0; VInt 0; VInt 0; VInt 0]); ("bps", VInt 8)].
(** data/cameras/sony/a35.toml *)
Definition cam_394 : table :=
  [("make", VStr "SONY"); ("model", VStr "SLT-A35"); ("clean_make", VStr "Sony"); ("clean_model", VStr "SLT-A35"); ("blackpoint", VInt 512); ("whitepoint", VInt 16300); ("color_matrix", VArr [VInt 5986; VInt (-1618); VInt (-415); VInt (-4557); VInt 11820; VInt 3120; VInt (-681); VInt 1404; VInt 6971]); ("color_pattern", VStr "RGGB"); ("crops", VArr [VInt 0; VInt 0; VInt 0; VInt 0]); ("bps", VInt 8)].
(** data/cameras/sony/a350.toml *)
Definition cam_395 : table :=
  [("make", VStr "SONY"); ("model", VStr "DSLR-A350"); ("clean_make", VStr "Sony"); ("clean_model", VStr "DSLR-A350"); ("blackpoint", VInt 0); ("whitepoint", VInt 4095); ("color_matrix", VArr [VInt 6038; VInt (-1484); VInt (-578); VInt (-9146); VInt 16746; VInt 2513; VInt (-875); VInt 746; VInt 7217]); ("color_pattern", VStr "RGGB"); ("crops", VArr [VInt 0; VInt 0; VInt 0; VInt 0]); ("bps", VInt 8)].
(** data/cameras/sony/a37.toml *)
Definition cam_396 : table :=
  [("make", VStr "SONY"); ("model", VStr "SLT-A37"); ("clean_make", VStr "Sony"); ("clean_model", VStr "SLT-A37"); ("blackpoint", VInt 512); ("whitepoint", VInt 16300); ("color_matrix", VArr [VInt 5991; VInt (-1456); VInt (-455); VInt (-4764); VInt 12135; VInt 2980; VInt (-707); VInt 1425; VInt 6701]); ("color_pattern", VStr "RGGB"); ("crops", VArr [VInt 0; VInt 0; VInt 0; VInt 0]); ("bps", VInt 8)].
(** data/cameras/sony/a390.toml *)
Definition cam_397 : table :=
  [("make", VStr "SONY"); ("model", VStr "DSLR-A390"); ("clean_make", VStr "Sony"); ("clean_model", VStr "DSLR-A390"); ("blackpoint", VInt 0); ("whitepoint", VInt 4095); ("color_matrix", VArr [VInt 6038; VInt (-1484); VInt (-579); VInt (-9145); VInt 16746; VInt 2512; VInt (-875); VInt 746; VInt 7218]); ("color_pattern", VStr "RGGB"); ("crops", VArr [VInt 0; VInt 0; VInt 0; VInt 0]); ("bps", VInt 8)].
(** data/cameras/sony/a500.toml *)
Definition cam_398 : table :=
  [("make", VStr "SONY"); ("model", VStr "DSLR-A500"); ("clean_make", VStr "Sony"); ("clean_model", VStr "DSLR-A500"); ("blackpoint", VInt 512); ("whitepoint", VInt 16300); ("color_matrix", VArr [VInt 6046; VInt (-1127); VInt (-278); VInt (-5574); VInt 13076; VInt 2786; VInt (-691); VInt 1419; VInt 7625]); ("color_pattern", VStr "RGGB"); ("crops", VArr [VInt 0; VInt 0; VInt 0; VInt 0]); ("bps", VInt 8)].
(** data/cameras/sony/a5000.toml *)
Definition cam_399 : table :=
  [("make", VStr "SONY"); ("model", VStr "ILCE-5000"); ("clean_make", VStr "Sony"); ("clean_model", VStr "ILCE-5000"); ("blackpoint", VInt 512); ("whitepoint", VInt 16300); ("color_matrix", VArr [VInt 5991; VInt (-1456); VInt (-455); VInt (-4764); VInt 12135; VInt 2980; VInt (-707); VInt 1425; VInt 6701]); ("color_pattern", VStr "RGGB"); ("crops", VArr [VInt 0; VInt 34; VInt 0; VInt 0]); ("bps", VInt 8)].
(** data/cameras/sony/a5100.toml *)
Definition cam_400 : table :=
  [("make", VStr "SONY"); ("model", VStr "ILCE-5100"); ("clean_make", VStr "Sony"); ("clean_model", VStr "ILCE-5100"); ("blackpoint", VInt 512); ("whitepoint", VInt 16300); ("color_matrix", VArr [VInt 5991; VInt (-1456); VInt (-455); VInt (-4764); VInt 12135; VInt 2980; VInt (-707); VInt 1425; VInt 6701]); ("color_pattern", VStr "RGGB"); ("crops", VArr [VInt 0; VInt 26; VInt 0; VInt 0]); ("bps", VInt 8)].
(** data/cameras/sony/a55.toml *)
Definition cam_401 : table :=
  [("make", VStr "SONY"); ("model", VStr "SLT-A55"); ("clean_make", VStr "Sony"); ("clean_model", VStr "SLT-A55"); ("model_aliases", VArr [VArr [VStr "SLT-A55V"; VStr "SLT-A55V"]]); ("blackpoint", VInt 512); ("whitepoint", VInt 16300); ("color_matrix", VArr [VInt 5932; VInt (-1492); VInt (-411); VInt (-4813); VInt 12285; VInt 2856; VInt (-741); VInt 1524; VInt 6739]); ("color_pattern", VStr "RGGB"); ("crops", VArr [VInt 0; VInt 0; VInt 0; VInt 0]); ("bps", VInt 8)].
(** data/cameras/sony/a550.toml *)
Definition cam_402 : table :=
  [("make", VStr "SONY"); ("model", VStr "DSLR-A550"); ("clean_make", VStr "Sony"); ("clean_model", VStr "DSLR-A550"); ("blackpoint", VInt 512); ("whitepoint", VInt 16300); ("color_matrix", VArr [VInt 4950; VInt (-580); VInt (-103); VInt (-5228); VInt 12542; VInt 3029; VInt (-709); VInt 1435; VInt 7371]); ("color_pattern", VStr "RGGB"); ("crops", VArr [VInt 0; VInt 0; VInt 0; VInt 0]); ("bps", VInt 8)].
(** data/cameras/sony/a57.toml *)
Definition cam_403 : table :=
  [("make", VStr "SONY"); ("model", VStr "SLT-A57"); ("clean_make", VStr "Sony"); ("clean_model", VStr "SLT-A57"); ("blackpoint", VInt 512); ("whitepoint", VInt 16300); ("color_matrix", VArr [VInt 5991; VInt (-1456); VInt (-455); VInt (-4764); VInt 12135; VInt 2980; VInt (-707); VInt 1425; VInt 6701]); ("color_pattern", VStr "RGGB"); ("crops", VArr [VInt 0; VInt 0; VInt 0; VInt 0]); ("bps", VInt 8)].
(** data/cameras/sony/a58.toml *)
Definition cam_404 : table :=
  [("make", VStr "SONY"); ("model", VStr "SLT-A58"); ("clean_make", VStr "Sony"); ("clean_model", VStr "SLT-A58"); ("blackpoint", VInt 512); ("whitepoint", VInt 16300); ("color_matrix", VArr [VInt 5991; VInt (-1456); VInt (-455); VInt (-4764); VInt 12135; VInt 2980; VInt (-707); VInt 1425; VInt 6701]); ("color_pattern", VStr "RGGB"); ("crops", VArr [VInt 0; VInt 36; VInt 0; VInt 0]); ("bps", VInt 8)].
(** data/cameras/sony/a580.toml *)
Definition cam_405 : table :=
  [("make", VStr "SONY"); ("model", VStr "DSLR-A580"); ("clean_make", VStr "Sony"); ("clean_model", VStr "DSLR-A580"); ("blackpoint", VInt 512); ("whitepoint", VInt 16300); ("color_matrix", VArr [VInt 5932; VInt (-1492); VInt (-411); VInt (-4813); VInt 12285; VInt 2856; VInt (-741); VInt 1524; VInt 6739]); ("color_pattern", VStr "RGGB"); ("crops", VArr [VInt 0; VInt 2; VInt 2; VInt 0]); ("bps", VInt 8)].
(** data/cameras/sony/a6000.toml *)
Definition cam_406 : table :=
  [("make", VStr "SONY"); ("model", VStr "ILCE-6000"); ("clean_make", VStr "Sony"); ("clean_model", VStr "ILCE-6000"); ("blackpoint", VInt 512); ("whitepoint", VInt 16300); ("color_matrix", VArr [VInt 5991; VInt (-1456); VInt (-455); VInt (-4764); VInt 12135; VInt 2980; VInt (-707); VInt 1425; VInt 6701]); ("color_pattern", VStr "RGGB"); ("crops", VArr [VInt 0; VInt 28; VInt 0; VInt 0]); ("bps", VInt 8)].
(** data/cameras/sony/a6300.toml *)
Definition cam_407 : table :=
  [("make", VStr "SONY"); ("model", VStr "ILCE-6300"); ("clean_make", VStr "SONY"); ("clean_model", VStr "ILCE-6300"); ("blackpoint", VInt 512); ("whitepoint", VInt 16300); ("color_matrix", VArr [VInt 5973; VInt (-1695); VInt (-419); VInt (-3826); VInt 11797; VInt 2293; VInt (-639); VInt 1398; VInt 5789]); ("color_pattern", VStr "RGGB"); ("crops", VArr [VInt 0; VInt 0; VInt 0; VInt 0]); ("bps", VInt 8)].
(** data/cameras/sony/a65.toml *)
Definition cam_408 : table :=
  [("make", VStr "SONY"); ("model", VStr "SLT-A65"); ("clean_make", VStr "Sony"); ("clean_model", VStr "SLT-A65"); ("model_aliases", VArr [VArr [VStr "SLT-A65V"; VStr "SLT-A65V"]]); ("blackpoint", VInt 512); ("whitepoint", VInt 16300); ("color_matrix", VArr [VInt 5491; VInt (-1192); VInt (-363); VInt (-4951); VInt 12342; VInt 2948; VInt (-911); VInt 1722; VInt 7192]); ("color_pattern", VStr "RGGB"); ("crops", VArr [VInt 0; VInt 30; VInt 0; VInt 0]); ("bps", VInt 8)].
(** data/cameras/sony/a6500.toml *)
Definition cam_409 : table :=
  [("make", VStr "SONY"); ("model", VStr "ILCE-6500"); ("clean_make", VStr "SONY"); ("clean_model", VStr "ILCE-6500"); ("blackpoint", VInt 512); ("whitepoint", VInt 16300); ("color_matrix", VArr [VInt 5973; VInt (-1695); VInt (-419); VInt (-3826); VInt 11797; VInt 2293; VInt (-639); VInt 1398; VInt 5789]); ("color_pattern", VStr "RGGB"); ("crops", VArr [VInt 0; VInt 0; VInt 0; VInt 0]); ("bps", VInt 8)].
(** data/cameras/sony/a68.toml *)
Definition cam_410 : table :=
  [("make", VStr "SONY"); ("model", VStr "ILCA-68"); ("clean_make", VStr "Sony"); ("clean_model", VStr "ILCA-68"); ("blackpoint", VInt 512); ("whitepoint", VInt 16300); ("color_matrix", VArr [VInt 6435; VInt (-1903); VInt (-536); VInt (-4722); VInt 12449; VInt 2550; VInt (-663); VInt 1363; VInt 6517]); ("color_pattern", VStr "RGGB"); ("crops", VArr [VInt 0; VInt 32; VInt 0; VInt 0]); ("bps", VInt 8)].
(** data/cameras/sony/a7.toml *)
Definition cam_411 : table :=
  [("make", VStr "SONY"); ("model", VStr "ILCE-7"); ("clean_make", VStr "Sony"); ("clean_model", VStr "ILCE-7"); ("blackpoint", VInt 512); ("whitepoint", VInt 16300); ("color_matrix", VArr [VInt 5271; VInt (-712); VInt (-347); VInt (-6153); VInt 13653; VInt 2763; VInt (-1601); VInt 2366; VInt 7242]); ("color_pattern", VStr "RGGB"); ("crops", VArr [VInt 0; VInt 26; VInt 0; VInt 0]); ("bps", VInt 8)].
(** data/cameras/sony/a700.toml *)
Definition cam_412 : table :=
  [("make", VStr "SONY"); ("model", VStr "DSLR-A700"); ("clean_make", VStr "Sony"); ("clean_model", VStr "DSLR-A700"); ("blackpoint", VInt 512); ("whitepoint", VInt 16383); ("color_matrix", VArr [VInt 5775; VInt (-805); VInt (-359); VInt (-8574); VInt 16295; VInt 2391; VInt (-1943); VInt 2341; VInt 7249]); ("color_pattern", VStr "RGGB"); ("crops", VArr [VInt 0; VInt 0; VInt 0; VInt 0])].
(** data/cameras/sony/a77.toml *)
Definition cam_413 : table :=
  [("make", VStr "SONY"); ("model", VStr "SLT-A77"); ("clean_make", VStr "Sony"); ("clean_model", VStr "SLT-A77"); ("model_aliases", VArr [VArr [VStr "SLT-A77V"; VStr "SLT-A77V"]]); ("blackpoint", VInt 512); ("whitepoint", VInt 16300); ("color_matrix", VArr [VInt 5491; VInt (-1192); VInt (-363); VInt (-4951); VInt 12342; VInt 2948; VInt (-911); VInt 1722; VInt 7192]); ("color_pattern", VStr "RGGB"); ("crops", VArr [VInt 0; VInt 28; VInt 0; VInt 0]); ("bps", VInt 8)].
(** data/cameras/sony/a77m2.toml *)
Definition cam_414 : table :=
  [("make", VStr "SONY"); ("model", VStr "ILCA-77M2"); ("clean_make", VStr "Sony"); ("clean_model", VStr "ILCA-77M2"); ("blackpoint", VInt 512); ("whitepoint", VInt 16300); ("color_matrix", VArr [VInt 5991; VInt (-1732); VInt (-443); VInt (-4100); VInt 11989; VInt 2381; VInt (-704); VInt 1467; VInt 5992]); ("color_pattern", VStr "RGGB"); ("crops", VArr [VInt 0; VInt 26; VInt 0; VInt 0]); ("bps", VInt 8)].
(** data/cameras/sony/a7m2.toml *)
Definition cam_415 : table :=
  [("make", VStr "SONY"); ("model", VStr "ILCE-7M2"); ("clean_make", VStr "Sony"); ("clean_model", VStr "ILCE-7M2"); ("blackpoint", VInt 512); ("whitepoint", VInt 16300); ("color_matrix", VArr [VInt 5271; VInt (-712); VInt (-347); VInt (-6153); VInt 13653; VInt 2763; VInt (-1601); VInt 2366; VInt 7242]); ("color_pattern", VStr "RGGB"); ("crops", VArr [VInt 0; VInt 26; VInt 0; VInt 0]); ("bps", VInt 8)].
(** data/cameras/sony/a7r.toml *)
Definition cam_416 : table :=
  [("make", VStr "SONY"); ("model", VStr "ILCE-7R"); ("clean_make", VStr "Sony"); ("clean_model", VStr "ILCE-7R"); ("blackpoint", VInt 512); ("whitepoint", VInt 16300); ("color_matrix", VArr [VInt 4913; VInt (-541); VInt (-202); VInt (-6130); VInt 13513; VInt 2906; VInt (-1564); VInt 2151; VInt 7183]); ("color_pattern", VStr "RGGB"); ("crops", VArr [VInt 0; VInt 26; VInt 0; VInt 0]); ("bps", VInt 8)].
(** data/cameras/sony/a7rm2.toml *)
Definition cam_417 : table :=
  [("make", VStr "SONY"); ("model", VStr "ILCE-7RM2"); ("clean_make", VStr "Sony"); ("clean_model", VStr "ILCE-7RM2"); ("blackpoint", VInt 512); ("whitepoint", VInt 16300); ("color_matrix", VArr [VInt 6629; VInt (-1900); VInt (-483); VInt (-4618); VInt 12349; VInt 2550; VInt (-622); VInt 1381; VInt 6514]); ("color_pattern", VStr "RGGB"); ("crops", VArr [VInt 0; VInt 32; VInt 0; VInt 0]); ("bps", VInt 8)].
(** data/cameras/sony/a7s.toml *)
Definition cam_418 : table :=
  [("make", VStr "SONY"); ("model", VStr "ILCE-7S"); ("clean_make", VStr "Sony"); ("clean_model", VStr "ILCE-7S"); ("blackpoint", VInt 512); ("whitepoint", VInt 16300); ("color_matrix", VArr [VInt 5838; VInt (-1430); VInt (-246); VInt (-3497); VInt 11477; VInt 2297; VInt (-748); VInt 1885; VInt 5778]); ("color_pattern", VStr "RGGB"); ("crops", VArr [VInt 0; VInt 32; VInt 0; VInt 0]); ("bps", VInt 8)].
(** data/cameras/sony/a7sm2.toml *)
Definition cam_419 : table :=
  [("make", VStr "SONY"); ("model", VStr "ILCE-7SM2"); ("clean_make", VStr "Sony"); ("clean_model", VStr "ILCE-7SM2"); ("blackpoint", VInt 512); ("whitepoint", VInt 16300); ("color_matrix", VArr [VInt 5838; VInt (-1430); VInt (-246); VInt (-3497); VInt 11477; VInt 2297; VInt (-748); VInt 1885; VInt 5778]); ("color_pattern", VStr "RGGB"); ("crops", VArr [VInt 0; VInt 32; VInt 0; VInt 0]); ("bps", VInt 8)].
(** data/cameras/sony/a850.toml *)
Definition cam_420 : table :=
  [("make", VStr "SONY"); ("model", VStr "DSLR-A850"); ("clean_make", VStr "Sony"); ("clean_model", VStr "DSLR-A850"); ("blackpoint", VInt 128); ("whitepoint", VInt 4095); ("color_matrix", VArr [VInt 5413; VInt (-1162); VInt (-365); VInt (-5665); VInt 13098; VInt 2866; VInt (-608); VInt 1179; VInt 8440]); ("color_pattern", VStr "RGGB"); ("crops", VArr [VInt 0; VInt 0; VInt 0; VInt 0])].
(** data/cameras/sony/a900.toml *)
Definition cam_421 : table :=
  [("make", VStr "SONY"); ("model", VStr "DSLR-A900"); ("clean_make", VStr "Sony"); ("clean_model", VStr "DSLR-A900"); ("blackpoint", VInt 128); ("whitepoint", VInt 4095); ("color_matrix", VArr [VInt 5209; VInt (-1072); VInt (-397); VInt (-8845); VInt 16120; VInt 2919; VInt (-1618); VInt 1803; VInt 8654]); ("color_pattern", VStr "RGGB"); ("crops", VArr [VInt 0; VInt 0; VInt 0; VInt 0])].
(** data/cameras/sony/a99.toml *)
Definition cam_422 : table :=
  [("make", VStr "SONY"); ("model", VStr "SLT-A99"); ("clean_make", VStr "Sony"); ("clean_model", VStr "SLT-A99"); ("model_aliases", VArr [VArr [VStr "SLT-A99V"; VStr "SLT-A99V"]]); ("blackpoint", VInt 512); ("whitepoint", VInt 16300); ("color_matrix", VArr [VInt 6344; VInt (-1612); VInt (-462); VInt (-4863); VInt 12477; VInt 2681; VInt (-865); VInt 1786; VInt 6899]); ("color_pattern", VStr "RGGB"); ("crops", VArr [VInt 0; VInt 28; VInt 0; VInt 0]); ("bps", VInt 8)].
(** data/cameras/sony/f828.toml *)
Definition cam_423 : table :=
  [("make", VStr "SONY"); ("model", VStr "DSC-F828"); ("clean_make", VStr "Sony"); ("clean_model", VStr "DSC-F828"); ("blackpoint", VInt 495); ("whitepoint", VInt 16383); ("color_matrix", VArr [VInt 7924; VInt (-1910); VInt (-777); VInt (-8226); VInt 15459; VInt 2998; VInt (-1517); VInt 2199; VInt 6818; VInt (-7242); VInt 11401; VInt 3481]); ("color_pattern", VStr "ERBG"); ("crops", VArr [VInt 0; VInt 67; VInt 0; VInt 5])].
(** data/cameras/sony/nex3.toml *)
Definition cam_424 : table :=
  [("make", VStr "SONY"); ("model", VStr "NEX-3"); ("clean_make", VStr "Sony"); ("clean_model", VStr "NEX-3"); ("blackpoint", VInt 512); ("whitepoint", VInt 16300); ("color_matrix", VArr [VInt 6549; VInt (-1550); VInt (-436); VInt (-4880); VInt 12435; VInt 2753; VInt (-854); VInt 1868; VInt 6976]); ("color_pattern", VStr "RGGB"); ("crops", VArr [VInt 0; VInt 0; VInt 0; VInt 0]); ("bps", VInt 8)].
(** data/cameras/sony/nex3n.toml *)
Definition cam_425 : table :=
  [("make", VStr "SONY"); ("model", VStr "NEX-3N"); ("clean_make", VStr "Sony"); ("clean_model", VStr "NEX-3N"); ("blackpoint", VInt 512); ("whitepoint", VInt 16300); ("color_matrix", VArr [VInt 6129; VInt (-1545); VInt (-418); VInt (-4930); VInt 12490; VInt 2743; VInt (-977); VInt 1693; VInt 6615]); ("color_pattern", VStr "RGGB"); ("crops", VArr [VInt 0; VInt 10; VInt 0; VInt 0]); ("bps", VInt 8)].
(** data/cameras/sony/nex5r.toml *)
Definition cam_426 : table :=
  [("make", VStr "SONY"); ("model", VStr "NEX-5R"); ("clean_make", VStr "Sony"); ("clean_model", VStr "NEX-5R"); ("blackpoint", VInt 512); ("whitepoint", VInt 16300); ("color_matrix", VArr [VInt 6129; VInt (-1545); VInt (-418); VInt (-4930); VInt 12490; VInt 2743; VInt (-977); VInt 1693; VInt 6615]); ("color_pattern", VStr "RGGB"); ("crops", VArr [VInt 0; VInt 12; VInt 0; VInt 0]); ("bps", VInt 8)].
(** data/cameras/sony/nex5t.toml *)
Definition cam_427 : table :=
  [("make", VStr "SONY"); ("model", VStr "NEX-5T"); ("clean_make", VStr "Sony"); ("clean_model", VStr "NEX-5T"); ("blackpoint", VInt 512); ("whitepoint", VInt 16300); ("color_matrix", VArr [VInt 6129; VInt (-1545); VInt (-418); VInt (-4930); VInt 12490; VInt 2743; VInt (-977); VInt 1693; VInt 6615]); ("color_pattern", VStr "RGGB"); ("crops", VArr [VInt 0; VInt 12; VInt 0; VInt 0]); ("bps", VInt 8)].
(** data/cameras/sony/nex6.toml *)
Definition cam_428 : table :=
  [("make", VStr "SONY"); ("model", VStr "NEX-6"); ("clean_make", VStr "Sony"); ("clean_model", VStr "NEX-6"); ("blackpoint", VInt 512); ("whitepoint", VInt 16300); ("color_matrix", VArr [VInt 6129; VInt (-1545); VInt (-418); VInt (-4930); VInt 12490; VInt 2743; VInt (-977); VInt 1693; VInt 6615]); ("color_pattern", VStr "RGGB"); ("crops", VArr [VInt 0; VInt 16; VInt 0; VInt 0]); ("bps", VInt 8)].
(** data/cameras/sony/nex7.toml *)
Definition cam_429 : table :=
  [("make", VStr "SONY"); ("model", VStr "NEX-7"); ("clean_make", VStr "Sony"); ("clean_model", VStr "NEX-7"); ("blackpoint", VInt 512); ("whitepoint", VInt 16300); ("color_matrix", VArr [VInt 5491; VInt (-1192); VInt (-363); VInt (-4951); VInt 12342; VInt 2948; VInt (-911); VInt 1722; VInt 7192]); ("color_pattern", VStr "RGGB"); ("crops", VArr [VInt 0; VInt 26; VInt 0; VInt 0]); ("bps", VInt 8)].
(** data/cameras/sony/nexf3.toml *)
Definition cam_430 : table :=
  [("make", VStr "SONY"); ("model", VStr "NEX-F3"); ("clean_make", VStr "Sony"); ("clean_model", VStr "NEX-F3"); ("blackpoint", VInt 512); ("whitepoint", VInt 16300); ("color_matrix", VArr [VInt 5991; VInt (-1456); VInt (-455); VInt (-4764); VInt 12135; VInt 2980; VInt (-707); VInt 1425; VInt 6701]); ("color_pattern", VStr "RGGB"); ("crops", VArr [VInt 0; VInt 0; VInt 0; VInt 0]); ("bps", VInt 8)].
(** data/cameras/sony/r1.toml *)
Definition cam_431 : table :=
  [("make", VStr "SONY"); ("model", VStr "DSC-R1"); ("clean_make", VStr "Sony"); ("clean_model", VStr "DSC-R1"); ("blackpoint", VInt 511); ("whitepoint", VInt 16383); ("color_matrix", VArr [VInt 8512; VInt (-2641); VInt (-694); VInt (-8042); VInt 15670; VInt 2526; VInt (-1821); VInt 2117; VInt 7414]); ("color_pattern", VStr "GRBG"); ("crops", VArr [VInt 0; VInt 60; VInt 0; VInt 0]); ("bps", VInt 8)].
(** data/cameras/sony/rx1.toml *)
Definition cam_432 : table :=
  [("make", VStr "SONY"); ("model", VStr "DSC-RX1"); ("clean_make", VStr "Sony"); ("clean_model", VStr "DSC-RX1"); ("blackpoint", VInt 512); ("whitepoint", VInt 16300); ("color_matrix", VArr [VInt 6344; VInt (-1612); VInt (-462); VInt (-4863); VInt 12477; VInt 2681; VInt (-865); VInt 1786; VInt 6899]); ("color_pattern", VStr "RGGB"); ("crops", VArr [VInt 0; VInt 18; VInt 0; VInt 0]); ("bps", VInt 8)].
(** data/cameras/sony/rx10.toml *)
Definition cam_433 : table :=
  [("make", VStr "SONY"); ("model", VStr "DSC-RX10"); ("clean_make", VStr "Sony"); ("clean_model", VStr "DSC-RX10"); ("blackpoint", VInt 800); ("whitepoint", VInt 16300); ("color_matrix", VArr [VInt 6679; VInt (-1825); VInt (-745); VInt (-5047); VInt 13256; VInt 1953; VInt (-1580); VInt 2422; VInt 5183]); ("color_pattern", VStr "RGGB"); ("crops", VArr [VInt 0; VInt 8; VInt 0; VInt 0]); ("bps", VInt 8)].
(** data/cameras/sony/rx100.toml *)
Definition cam_434 : table :=
  [("make", VStr "SONY"); ("model", VStr "DSC-RX100"); ("clean_make", VStr "Sony"); ("clean_model", VStr "DSC-RX100"); ("blackpoint", VInt 800); ("whitepoint", VInt 16300); ("color_matrix", VArr [VInt 8651; VInt (-2754); VInt (-1057); VInt (-3464); VInt 12207; VInt 1373; VInt (-568); VInt 1398; VInt 4434]); ("color_pattern", VStr "RGGB"); ("crops", VArr [VInt 0; VInt 12; VInt 0; VInt 0]); ("bps", VInt 8)].
(** data/cameras/sony/rx100m2.toml *)
Definition cam_435 : table :=
  [("make", VStr "SONY"); ("model", VStr "DSC-RX100M2"); ("clean_make", VStr "Sony"); ("clean_model", VStr "DSC-RX100M2"); ("blackpoint", VInt 800); ("whitepoint", VInt 16300); ("color_matrix", VArr [VInt 6596; VInt (-2079); VInt (-562); VInt (-4782); VInt 13016; VInt 1933; VInt (-970); VInt 1581; VInt 5181]); ("color_pattern", VStr "RGGB"); ("crops", VArr [VInt 0; VInt 12; VInt 0; VInt 0]); ("bps", VInt 8)].
(** data/cameras/sony/rx100m3.toml *)
Definition cam_436 : table :=
  [("make", VStr "SONY"); ("model", VStr "DSC-RX100M3"); ("clean_make", VStr "Sony"); ("clean_model", VStr "DSC-RX100M3"); ("blackpoint", VInt 800); ("whitepoint", VInt 16300); ("color_matrix", VArr [VInt 6596; VInt (-2079); VInt (-562); VInt (-4782); VInt 13016; VInt 1933; VInt (-970); VInt 1581; VInt 5181]); ("color_pattern", VStr "RGGB"); ("crops", VArr [VInt 0; VInt 12; VInt 0; VInt 0]); ("bps", VInt 8)].
(** data/cameras/sony/rx100m4.toml *)
Definition cam_437 : table :=
  [("make", VStr "SONY"); ("model", VStr "DSC-RX100M4"); ("clean_make", VStr "Sony"); ("clean_model", VStr "DSC-RX100M4"); ("blackpoint", VInt 800); ("whitepoint", VInt 16300); ("color_matrix", VArr [VInt 6596; VInt (-2079); VInt (-562); VInt (-4782); VInt 13016; VInt 1933; VInt (-970); VInt 1581; VInt 5181]); ("color_pattern", VStr "RGGB"); ("crops", VArr [VInt 0; VInt 0; VInt 0; VInt 0]); ("bps", VInt 8)].
(** data/cameras/sony/rx100m5.toml *)
Definition cam_438 : table :=
  [("make", VStr "SONY"); ("model", VStr "DSC-RX100M5"); ("clean_make", VStr "SONY"); ("clean_model", VStr "DSC-RX100M5"); ("blackpoint", VInt 800); ("whitepoint", VInt 16300); ("color_matrix", VArr [VInt 6596; VInt (-2079); VInt (-562); VInt (-4782); VInt 13016; VInt 1933; VInt (-970); VInt 1581; VInt 5181]); ("color_pattern", VStr "RGGB"); ("crops", VArr [VInt 0; VInt 0; VInt 0; VInt 0]); ("bps", VInt 8)].
(** data/cameras/sony/rx10m2.toml *)
Definition cam_439 : table :=
  [("make", VStr "SONY"); ("model", VStr "DSC-RX10M2"); ("clean_make", VStr "Sony"); ("clean_model", VStr "DSC-RX10M2"); ("blackpoint", VInt 800); ("whitepoint", VInt 16300); ("color_matrix", VArr [VInt 6679; VInt (-1825); VInt (-745); VInt (-5047); VInt 13256; VInt 1953; VInt (-1580); VInt 2422; VInt 5183]); ("color_pattern", VStr "RGGB"); ("crops", VArr [VInt 0; VInt 8; VInt 0; VInt 0]); ("bps", VInt 8)].
(** data/cameras/sony/rx10m3.toml *)
Definition cam_440 : table :=
  [("make", VStr "SONY"); ("model", VStr "DSC-RX10M3"); ("clean_make", VStr "SONY"); ("clean_model", VStr "DSC-RX10M3"); ("blackpoint", VInt 800); ("whitepoint", VInt 16300); ("color_matrix", VArr [VInt 6679; VInt (-1825); VInt (-745); VInt (-5047); VInt 13256; VInt 1953; VInt (-1580); VInt 2422; VInt 5183]); ("color_pattern", VStr "RGGB"); ("crops", VArr [VInt 0; VInt 0; VInt 0; VInt 0]); ("bps", VInt 8)].
(** data/cameras/sony/rx1r.toml *)
Definition cam_441 : table :=
  [("make", VStr "SONY"); ("model", VStr "DSC-RX1R"); ("clean_make", VStr "Sony"); ("clean_model", VStr "DSC-RX1R"); ("blackpoint", VInt 512); ("whitepoint", VInt 16300); ("color_matrix", VArr [VInt 6344; VInt (-1612); VInt (-462); VInt (-4863); VInt 12477; VInt 2681; VInt (-865); VInt 1786; VInt 6899]); ("color_pattern", VStr "RGGB"); ("crops", VArr [VInt 0; VInt 16; VInt 0; VInt 0]); ("bps", VInt 8)].
Definition shipped : list table :=
  [cam_0; cam_1; cam_2; cam_3; cam_4; cam_5; cam_6; cam_7; cam_8; cam_9; cam_10; cam_11;
   cam_12; cam_13; cam_14; cam_15; cam_16; cam_17; cam_18; cam_19; cam_20; cam_21; cam_22; cam_23;
   cam_24; cam_25; cam_26; cam_27; cam_28; cam_29; cam_30; cam_31; cam_32; cam_33; cam_34; cam_35;
   cam_36; cam_37; cam_38; cam_39; cam_40; cam_41; cam_42; cam_43; cam_44; cam_45; cam_46; cam_47;
   cam_48; cam_49; cam_50; cam_51; cam_52; cam_53; cam_54; cam_55; cam_56; cam_57; cam_58; cam_59;
   cam_60; cam_61; cam_62; cam_63; cam_64; cam_65; cam_66; cam_67; cam_68; cam_69; cam_70; cam_71;
   cam_72; cam_73; cam_74; cam_75; cam_76; cam_77; cam_78; cam_79; cam_80; cam_81; cam_82; cam_83;
   cam_84; cam_85; cam_86; cam_87; cam_88; cam_89; cam_90; cam_91; cam_92; cam_93; cam_94; cam_95;
   cam_96; cam_97; cam_98; cam_99; cam_100; cam_101; cam_102; cam_103; cam_104; cam_105; cam_106; cam_107;
   cam_108; cam_109; cam_110; cam_111; cam_112; cam_113; cam_114; cam_115; cam_116; cam_117; cam_118; cam_119;
   cam_120; cam_121; cam_122; cam_123; cam_124; cam_125; cam_126; cam_127; cam_128; cam_129; cam_130; cam_131;
   cam_132; cam_133; cam_134; cam_135; cam_136; cam_137; cam_138; cam_139; cam_140; cam_141; cam_142; cam_143;
   cam_144; cam_145; cam_146; cam_147; cam_148; cam_149; cam_150; cam_151; cam_152; cam_153; cam_154; cam_155;
   cam_156; cam_157; cam_158; cam_159; cam_160; cam_161; cam_162; cam_163; cam_164; cam_165; cam_166; cam_167;
   cam_168; cam_169; cam_170; cam_171; cam_172; cam_173; cam_174; cam_175; cam_176; cam_177; cam_178; cam_179;
   cam_180; cam_181; cam_182; cam_183; cam_184; cam_185; cam_186; cam_187; cam_188; cam_189; cam_190; cam_191;
   cam_192; cam_193; cam_194; cam_195; cam_196; cam_197; cam_198; cam_199; cam_200; cam_201; cam_202; cam_203;
   cam_204; cam_205; cam_206; cam_207; cam_208; cam_209; cam_210; cam_211; cam_212; cam_213; cam_214; cam_215;
   cam_216; cam_217; cam_218; cam_219; cam_220; cam_221; cam_222; cam_223; cam_224; cam_225; cam_226; cam_227;
   cam_228; cam_229; cam_230; cam_231; cam_232; cam_233; cam_234; cam_235; cam_236; cam_237; cam_238; cam_239;
   cam_240; cam_241; cam_242; cam_243; cam_244; cam_245; cam_246; cam_247; cam_248; cam_249; cam_250; cam_251;
   cam_252; cam_253; cam_254; cam_255; cam_256; cam_257; cam_258; cam_259; cam_260; cam_261; cam_262; cam_263;
   cam_264; cam_265; cam_266; cam_267; cam_268; cam_269; cam_270; cam_271; cam_272; cam_273; cam_274; cam_275;
   cam_276; cam_277; cam_278; cam_279; cam_280; cam_281; cam_282; cam_283; cam_284; cam_285; cam_286; cam_287;
   cam_288; cam_289; cam_290; cam_291; cam_292; cam_293; cam_294; cam_295; cam_296; cam_297; cam_298; cam_299;
   cam_300; cam_301; cam_302; cam_303; cam_304; cam_305; cam_306; cam_307; cam_308; cam_309; cam_310; cam_311;
   cam_312; cam_313; cam_314; cam_315; cam_316; cam_317; cam_318; cam_319; cam_320; cam_321; cam_322; cam_323;
   cam_324; cam_325; cam_326; cam_327; cam_328; cam_329; cam_330; cam_331; cam_332; cam_333; cam_334; cam_335;
   cam_336; cam_337; cam_338; cam_339; cam_340; cam_341; cam_342; cam_343; cam_344; cam_345; cam_346; cam_347;
   cam_348; cam_349; cam_350; cam_351; cam_352; cam_353; cam_354; cam_355; cam_356; cam_357; cam_358; cam_359;
   cam_360; cam_361; cam_362; cam_363; cam_364; cam_365; cam_366; cam_367; cam_368; cam_369; cam_370; cam_371;
   cam_372; cam_373; cam_374; cam_375; cam_376; cam_377; cam_378; cam_379; cam_380; cam_381; cam_382; cam_383;
   cam_384; cam_385; cam_386; cam_387; cam_388; cam_389; cam_390; cam_391; cam_392; cam_393; cam_394; cam_395;
   cam_396; cam_397; cam_398; cam_399; cam_400; cam_401; cam_402; cam_403; cam_404; cam_405; cam_406; cam_407;
   cam_408; cam_409; cam_410; cam_411; cam_412; cam_413; cam_414; cam_415; cam_416; cam_417; cam_418; cam_419;
   cam_420; cam_421; cam_422; cam_423; cam_424; cam_425; cam_426; cam_427; cam_428; cam_429; cam_430; cam_431;
   cam_432; cam_433; cam_434; cam_435; cam_436; cam_437; cam_438; cam_439; cam_440; cam_441].

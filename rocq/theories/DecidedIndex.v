(** Positions of the shipped functionals in the lists of Decided.v. Written by tools/gen_decided.py. *)
From Coq Require Import List.
From Verif Require Import Src.
Import ListNotations.

Definition closed_shell_index : list nat := [
  0; 79; 158; 1; 80; 159; 2; 260; 81; 160; 3; 82; 161; 4; 83; 162; 5; 253; 84; 254; 163; 6; 85;
  164; 7; 86; 165; 8; 87; 166; 9; 88; 167; 10; 89; 168; 11; 90; 169; 12; 91; 170; 244; 13; 92;
  171; 14; 93; 172; 15; 94; 173; 16; 95; 174; 17; 96; 175; 18; 97; 176; 19; 98; 177; 20; 99; 178;
  21; 100; 237; 252; 179; 22; 101; 180; 23; 102; 181; 24; 103; 182; 25; 104; 183; 245; 26; 105;
  184; 27; 106; 185; 249; 28; 107; 250; 186; 29; 108; 187; 30; 109; 188; 31; 238; 110; 189; 32;
  111; 190; 246; 33; 112; 191; 34; 251; 113; 192; 35; 114; 193; 36; 115; 242; 243; 255; 194; 37;
  116; 195; 38; 117; 196; 39; 118; 197; 40; 119; 198; 41; 120; 199; 42; 121; 200; 256; 259; 43;
  122; 201; 44; 123; 202; 45; 124; 203; 46; 125; 204; 47; 126; 205; 48; 127; 206; 49; 128; 207;
  50; 129; 208; 51; 130; 209; 52; 131; 210; 53; 132; 211; 54; 133; 212; 257; 55; 134; 213; 56;
  135; 214; 57; 136; 215; 58; 137; 216; 59; 138; 258; 217; 60; 139; 218; 61; 140; 219; 62; 141;
  247; 220; 63; 142; 221; 64; 143; 222; 65; 144; 223; 66; 145; 224; 67; 146; 239; 225; 68; 147;
  226; 240; 69; 148; 227; 70; 149; 228; 71; 150; 229; 72; 151; 230; 73; 152; 231; 74; 153; 232;
  75; 248; 154; 233; 76; 155; 234; 241; 77; 156; 235; 78; 157; 236].
Definition swap_index : list nat := [
  0; 85; 169; 1; 86; 170; 2; 87; 171; 3; 88; 172; 4; 89; 173; 5; 90; 174; 6; 91; 175; 7; 92; 176;
  8; 93; 177; 9; 94; 178; 10; 95; 179; 11; 96; 180; 12; 97; 181; 13; 98; 182; 14; 99; 183; 15;
  100; 184; 16; 101; 185; 17; 102; 186; 18; 103; 187; 19; 104; 188; 20; 105; 189; 21; 106; 190;
  22; 107; 191; 253; 23; 108; 192; 24; 109; 193; 25; 110; 194; 26; 111; 195; 27; 112; 196; 28;
  113; 197; 29; 114; 257; 198; 30; 115; 199; 31; 116; 200; 32; 117; 201; 33; 118; 202; 34; 119;
  203; 35; 120; 204; 36; 121; 205; 37; 122; 206; 38; 123; 207; 39; 124; 208; 40; 125; 209; 41;
  126; 210; 42; 127; 211; 43; 128; 212; 44; 129; 213; 45; 130; 214; 46; 131; 215; 47; 132; 216;
  48; 133; 217; 49; 134; 218; 50; 135; 219; 51; 136; 220; 52; 137; 221; 53; 138; 222; 54; 139;
  223; 55; 140; 224; 56; 258; 141; 225; 57; 142; 226; 58; 143; 227; 59; 144; 228; 60; 145; 229;
  61; 146; 230; 62; 147; 231; 63; 148; 232; 64; 149; 233; 65; 150; 234; 66; 151; 235; 67; 152;
  236; 68; 153; 259; 237; 69; 154; 238; 70; 155; 239; 71; 156; 240; 72; 157; 241; 254; 73; 158;
  242; 74; 255; 159; 243; 75; 160; 244; 76; 161; 245; 77; 162; 246; 78; 163; 247; 79; 164; 248;
  80; 165; 249; 81; 260; 166; 250; 82; 256; 167; 251; 83; 168; 252; 84].
Definition scaling_x_others : list source := [
  f_gga_c_acgga; f_gga_c_acggap; f_gga_c_am05; f_gga_c_bmk; f_gga_c_ccdf; f_gga_c_chachiyo;
  f_gga_c_cs1; f_gga_c_ft97; f_gga_c_gapc; f_gga_c_gaploc; f_gga_c_hcth_a; f_gga_c_lm;
  f_gga_c_lyp; f_gga_c_lypr; f_gga_c_op_b88; f_gga_c_op_g96; f_gga_c_op_pbe; f_gga_c_op_pw91;
  f_gga_c_op_xalpha; f_gga_c_optc; f_gga_c_p86; f_gga_c_p86vwn; f_gga_c_pbe; f_gga_c_pbe_vwn;
  f_gga_c_pbeloc; f_gga_c_pw91; f_gga_c_q2d; f_gga_c_regtpss; f_gga_c_revtca; f_gga_c_scan_e0;
  f_gga_c_sg4; f_gga_c_sogga11; f_gga_c_tca; f_gga_c_w94; f_gga_c_wi; f_gga_c_wl;
  f_gga_c_zpbeint; f_gga_c_zvpbeint; f_gga_c_zvpbeloc; f_gga_k_apbe; f_gga_k_apbeint; f_gga_k_dk;
  f_gga_k_exp4; f_gga_k_lc94; f_gga_k_lgap; f_gga_k_lgap_ge; f_gga_k_lkt; f_gga_k_llp;
  f_gga_k_meyer; f_gga_k_mpbe; f_gga_k_ol1; f_gga_k_ol2; f_gga_k_pearson; f_gga_k_pg;
  f_gga_k_pw86; f_gga_k_rational_p; f_gga_k_tflw; f_gga_k_thakkar; f_gga_k_vt84f; f_gga_xc_b97;
  f_gga_xc_th1; f_gga_xc_th2; f_gga_xc_th3; f_hyb_gga_xc_case21; f_hyb_gga_xc_wb97;
  f_hyb_lda_xc_bn05; f_hyb_mgga_xc_wb97mv; f_lda_c_1d_csc; f_lda_c_1d_loos; f_lda_c_2d_amgb;
  f_lda_c_2d_prm; f_lda_c_chachiyo; f_lda_c_chachiyo_mod; f_lda_c_gk72; f_lda_c_gombas;
  f_lda_c_hl; f_lda_c_lp96; f_lda_c_ml1; f_lda_c_pk09; f_lda_c_pmgb06; f_lda_c_pw; f_lda_c_pz;
  f_lda_c_rc04; f_lda_c_rpa; f_lda_c_vwn; f_lda_c_vwn_1; f_lda_c_vwn_2; f_lda_c_vwn_3;
  f_lda_c_vwn_4; f_lda_c_vwn_rpa; f_lda_c_w20; f_lda_c_wigner; f_lda_k_gds08_worker; f_lda_k_tf;
  f_lda_k_zlp; f_lda_xc_1d_ehwlrg; f_lda_xc_ksdt; f_lda_xc_teter93; f_lda_xc_tih; f_lda_xc_zlp;
  f_mgga_c_b88; f_mgga_c_b94; f_mgga_c_bc95; f_mgga_c_cc; f_mgga_c_ccalda; f_mgga_c_cs;
  f_mgga_c_kcis; f_mgga_c_kcisk; f_mgga_c_ltapw; f_mgga_c_m05; f_mgga_c_m06l; f_mgga_c_m08;
  f_mgga_c_pkzb; f_mgga_c_r2scan; f_mgga_c_revscan; f_mgga_c_revtpss; f_mgga_c_rmggac;
  f_mgga_c_rppscan; f_mgga_c_rregtm; f_mgga_c_rscan; f_mgga_c_scan; f_mgga_c_tpss;
  f_mgga_c_tpssloc; f_mgga_c_vsxc; f_mgga_k_csk; f_mgga_k_csk_loc; f_mgga_k_gea2; f_mgga_k_gea4;
  f_mgga_k_lk; f_mgga_k_pc07; f_mgga_k_pgslb; f_mgga_k_rda; f_mgga_xc_b97mv; f_mgga_xc_b98;
  f_mgga_xc_cc06; f_mgga_xc_lp90; f_mgga_xc_zlp].
Definition scaling_x_index : list nat := [
  124; 125; 126; 127; 128; 129; 130; 131; 132; 133; 134; 135; 136; 137; 138; 139; 140; 141; 142;
  143; 144; 145; 146; 147; 148; 149; 150; 151; 152; 153; 154; 155; 156; 157; 158; 159; 160; 161;
  162; 163; 164; 165; 166; 167; 168; 169; 170; 171; 172; 173; 174; 175; 176; 177; 178; 179; 180;
  181; 182; 104; 105; 106; 107; 0; 1; 2; 3; 4; 5; 6; 7; 8; 9; 10; 11; 12; 13; 92; 14; 15; 16; 17;
  120; 121; 18; 108; 109; 110; 111; 19; 20; 21; 22; 23; 24; 25; 112; 26; 27; 28; 29; 30; 31; 32;
  33; 34; 35; 36; 37; 38; 39; 40; 97; 98; 41; 42; 43; 44; 45; 46; 99; 183; 184; 185; 186; 113;
  187; 188; 189; 47; 114; 48; 115; 190; 191; 192; 193; 194; 195; 196; 197; 198; 199; 200; 201;
  202; 203; 204; 205; 206; 207; 208; 209; 210; 211; 212; 213; 214; 215; 216; 217; 218; 49; 122;
  123; 116; 117; 93; 94; 100; 219; 220; 221; 222; 223; 224; 225; 226; 227; 228; 229; 230; 231;
  232; 233; 234; 235; 236; 237; 238; 239; 240; 241; 242; 243; 244; 245; 246; 247; 248; 249; 250;
  251; 252; 253; 254; 255; 95; 101; 102; 50; 51; 52; 53; 54; 55; 56; 57; 58; 59; 60; 118; 103;
  61; 62; 63; 64; 65; 66; 67; 119; 68; 69; 70; 71; 72; 73; 74; 75; 76; 77; 78; 79; 80; 96; 81;
  82; 83; 84; 85; 86; 87; 88; 89; 90; 91; 256; 257; 258; 259; 260].
Definition scaling_k_others : list source := [
  f_gga_c_acgga; f_gga_c_acggap; f_gga_c_am05; f_gga_c_bmk; f_gga_c_ccdf; f_gga_c_chachiyo;
  f_gga_c_cs1; f_gga_c_ft97; f_gga_c_gapc; f_gga_c_gaploc; f_gga_c_hcth_a; f_gga_c_lm;
  f_gga_c_lyp; f_gga_c_lypr; f_gga_c_op_b88; f_gga_c_op_g96; f_gga_c_op_pbe; f_gga_c_op_pw91;
  f_gga_c_op_xalpha; f_gga_c_optc; f_gga_c_p86; f_gga_c_p86vwn; f_gga_c_pbe; f_gga_c_pbe_vwn;
  f_gga_c_pbeloc; f_gga_c_pw91; f_gga_c_q2d; f_gga_c_regtpss; f_gga_c_revtca; f_gga_c_scan_e0;
  f_gga_c_sg4; f_gga_c_sogga11; f_gga_c_tca; f_gga_c_w94; f_gga_c_wi; f_gga_c_wl;
  f_gga_c_zpbeint; f_gga_c_zvpbeint; f_gga_c_zvpbeloc; f_gga_x_2d_b86; f_gga_x_2d_b86_mgc;
  f_gga_x_2d_b88; f_gga_x_2d_pbe; f_gga_x_airy; f_gga_x_ak13; f_gga_x_am05; f_gga_x_b86;
  f_gga_x_b88; f_gga_x_bayesian; f_gga_x_beefvdw; f_gga_x_bpccac; f_gga_x_c09x; f_gga_x_cap;
  f_gga_x_chachiyo; f_gga_x_dk87; f_gga_x_ev93; f_gga_x_fd_lb94; f_gga_x_ft97; f_gga_x_g96;
  f_gga_x_gg99; f_gga_x_hcth_a; f_gga_x_herman; f_gga_x_hjs; f_gga_x_hjs_b88_v2; f_gga_x_htbs;
  f_gga_x_ityh; f_gga_x_ityh_optx; f_gga_x_ityh_pbe; f_gga_x_kt; f_gga_x_lag; f_gga_x_lb;
  f_gga_x_lg93; f_gga_x_lspbe; f_gga_x_lsrpbe; f_gga_x_lv_rpw86; f_gga_x_mpbe; f_gga_x_n12;
  f_gga_x_ncap; f_gga_x_ol2; f_gga_x_optx; f_gga_x_pbe; f_gga_x_pbea; f_gga_x_pbeint;
  f_gga_x_pbepow; f_gga_x_pbetrans; f_gga_x_pw86; f_gga_x_pw91; f_gga_x_q1d; f_gga_x_q2d;
  f_gga_x_rge2; f_gga_x_rpbe; f_gga_x_s12; f_gga_x_sfat; f_gga_x_sfat_pbe; f_gga_x_sg4;
  f_gga_x_sogga11; f_gga_x_ssb_sw; f_gga_x_vmt; f_gga_x_vmt84; f_gga_x_wc; f_gga_x_wpbeh;
  f_gga_xc_b97; f_gga_xc_th1; f_gga_xc_th2; f_gga_xc_th3; f_hyb_gga_x_cam_s12;
  f_hyb_gga_xc_case21; f_hyb_gga_xc_wb97; f_hyb_lda_xc_bn05; f_hyb_mgga_x_dldf;
  f_hyb_mgga_x_js18; f_hyb_mgga_x_m05; f_hyb_mgga_x_pjs18; f_hyb_mgga_xc_wb97mv; f_lda_c_1d_csc;
  f_lda_c_1d_loos; f_lda_c_2d_amgb; f_lda_c_2d_prm; f_lda_c_chachiyo; f_lda_c_chachiyo_mod;
  f_lda_c_gk72; f_lda_c_gombas; f_lda_c_hl; f_lda_c_lp96; f_lda_c_ml1; f_lda_c_pk09;
  f_lda_c_pmgb06; f_lda_c_pw; f_lda_c_pz; f_lda_c_rc04; f_lda_c_rpa; f_lda_c_vwn; f_lda_c_vwn_1;
  f_lda_c_vwn_2; f_lda_c_vwn_3; f_lda_c_vwn_4; f_lda_c_vwn_rpa; f_lda_c_w20; f_lda_c_wigner;
  f_lda_x; f_lda_x_1d_exponential; f_lda_x_1d_soft; f_lda_x_2d; f_lda_x_erf; f_lda_x_rel;
  f_lda_x_sloc; f_lda_x_yukawa; f_lda_xc_1d_ehwlrg; f_lda_xc_ksdt; f_lda_xc_teter93;
  f_lda_xc_tih; f_lda_xc_zlp; f_mgga_c_b88; f_mgga_c_b94; f_mgga_c_bc95; f_mgga_c_cc;
  f_mgga_c_ccalda; f_mgga_c_cs; f_mgga_c_kcis; f_mgga_c_kcisk; f_mgga_c_ltapw; f_mgga_c_m05;
  f_mgga_c_m06l; f_mgga_c_m08; f_mgga_c_pkzb; f_mgga_c_r2scan; f_mgga_c_revscan;
  f_mgga_c_revtpss; f_mgga_c_rmggac; f_mgga_c_rppscan; f_mgga_c_rregtm; f_mgga_c_rscan;
  f_mgga_c_scan; f_mgga_c_tpss; f_mgga_c_tpssloc; f_mgga_c_vsxc; f_mgga_x_2d_js17;
  f_mgga_x_2d_prhg07; f_mgga_x_2d_prp10; f_mgga_x_br89; f_mgga_x_br89_explicit; f_mgga_x_edmgga;
  f_mgga_x_ft98; f_mgga_x_gdme; f_mgga_x_gvt4; f_mgga_x_gx; f_mgga_x_jk; f_mgga_x_lta;
  f_mgga_x_m06l; f_mgga_x_m08; f_mgga_x_m11; f_mgga_x_m11_l; f_mgga_x_mbeef; f_mgga_x_mbeefvdw;
  f_mgga_x_mbr; f_mgga_x_mbrxc_bg; f_mgga_x_mbrxh_bg; f_mgga_x_mcml; f_mgga_x_mggac;
  f_mgga_x_mn12; f_mgga_x_ms; f_mgga_x_msb; f_mgga_x_mvs; f_mgga_x_mvsb; f_mgga_x_pbe_gx;
  f_mgga_x_pkzb; f_mgga_x_r2scan; f_mgga_x_r4scan; f_mgga_x_regtm; f_mgga_x_regtpss;
  f_mgga_x_revtm; f_mgga_x_rlda; f_mgga_x_rppscan; f_mgga_x_rscan; f_mgga_x_rtpss;
  f_mgga_x_sa_tpss; f_mgga_x_scan; f_mgga_x_task; f_mgga_x_tau_hcth; f_mgga_x_tb09; f_mgga_x_th;
  f_mgga_x_tm; f_mgga_x_tpss; f_mgga_x_vcml; f_mgga_x_vt84; f_mgga_xc_b97mv; f_mgga_xc_b98;
  f_mgga_xc_cc06; f_mgga_xc_lp90; f_mgga_xc_zlp].
Definition scaling_k_index : list nat := [
  31; 32; 33; 34; 35; 36; 37; 38; 39; 40; 41; 42; 43; 44; 45; 46; 47; 48; 49; 50; 51; 52; 53; 54;
  55; 56; 57; 58; 59; 60; 61; 62; 63; 64; 65; 66; 67; 68; 69; 0; 1; 2; 3; 4; 5; 6; 7; 8; 9; 10;
  11; 12; 13; 14; 15; 16; 17; 18; 19; 70; 71; 72; 73; 74; 75; 76; 77; 78; 79; 80; 81; 82; 83; 84;
  85; 86; 87; 88; 89; 90; 91; 92; 93; 94; 95; 96; 97; 98; 99; 100; 101; 102; 103; 104; 105; 106;
  107; 108; 109; 110; 111; 112; 113; 114; 115; 116; 117; 118; 119; 120; 121; 122; 123; 124; 125;
  126; 127; 128; 129; 130; 131; 132; 133; 134; 135; 136; 137; 138; 139; 140; 141; 142; 143; 144;
  145; 146; 147; 148; 149; 150; 151; 152; 153; 154; 155; 156; 157; 158; 159; 160; 161; 162; 163;
  164; 165; 166; 167; 168; 169; 29; 20; 30; 170; 171; 172; 173; 174; 175; 176; 177; 178; 179;
  180; 181; 182; 183; 184; 185; 186; 187; 188; 189; 190; 191; 192; 193; 194; 195; 196; 197; 198;
  199; 200; 201; 202; 203; 204; 205; 206; 21; 22; 23; 24; 25; 26; 27; 28; 207; 208; 209; 210;
  211; 212; 213; 214; 215; 216; 217; 218; 219; 220; 221; 222; 223; 224; 225; 226; 227; 228; 229;
  230; 231; 232; 233; 234; 235; 236; 237; 238; 239; 240; 241; 242; 243; 244; 245; 246; 247; 248;
  249; 250; 251; 252; 253; 254; 255; 256; 257; 258; 259; 260].
Definition spin_others : list source := [
  f_gga_c_acgga; f_gga_c_acggap; f_gga_c_am05; f_gga_c_bmk; f_gga_c_ccdf; f_gga_c_chachiyo;
  f_gga_c_cs1; f_gga_c_ft97; f_gga_c_gapc; f_gga_c_gaploc; f_gga_c_hcth_a; f_gga_c_lm;
  f_gga_c_lyp; f_gga_c_lypr; f_gga_c_op_b88; f_gga_c_op_g96; f_gga_c_op_pbe; f_gga_c_op_pw91;
  f_gga_c_op_xalpha; f_gga_c_optc; f_gga_c_p86; f_gga_c_p86vwn; f_gga_c_pbe; f_gga_c_pbe_vwn;
  f_gga_c_pbeloc; f_gga_c_pw91; f_gga_c_q2d; f_gga_c_regtpss; f_gga_c_revtca; f_gga_c_scan_e0;
  f_gga_c_sg4; f_gga_c_sogga11; f_gga_c_tca; f_gga_c_w94; f_gga_c_wi; f_gga_c_wl;
  f_gga_c_zpbeint; f_gga_c_zvpbeint; f_gga_c_zvpbeloc; f_gga_xc_b97; f_gga_xc_th1; f_gga_xc_th2;
  f_gga_xc_th3; f_hyb_gga_xc_case21; f_hyb_gga_xc_wb97; f_hyb_lda_xc_bn05; f_hyb_mgga_xc_wb97mv;
  f_lda_c_1d_csc; f_lda_c_1d_loos; f_lda_c_2d_amgb; f_lda_c_2d_prm; f_lda_c_chachiyo;
  f_lda_c_chachiyo_mod; f_lda_c_gk72; f_lda_c_gombas; f_lda_c_hl; f_lda_c_lp96; f_lda_c_ml1;
  f_lda_c_pk09; f_lda_c_pmgb06; f_lda_c_pw; f_lda_c_pz; f_lda_c_rc04; f_lda_c_rpa; f_lda_c_vwn;
  f_lda_c_vwn_1; f_lda_c_vwn_2; f_lda_c_vwn_3; f_lda_c_vwn_4; f_lda_c_vwn_rpa; f_lda_c_w20;
  f_lda_c_wigner; f_lda_xc_1d_ehwlrg; f_lda_xc_ksdt; f_lda_xc_teter93; f_lda_xc_tih;
  f_lda_xc_zlp; f_mgga_c_b88; f_mgga_c_b94; f_mgga_c_bc95; f_mgga_c_cc; f_mgga_c_ccalda;
  f_mgga_c_cs; f_mgga_c_kcis; f_mgga_c_kcisk; f_mgga_c_ltapw; f_mgga_c_m05; f_mgga_c_m06l;
  f_mgga_c_m08; f_mgga_c_pkzb; f_mgga_c_r2scan; f_mgga_c_revscan; f_mgga_c_revtpss;
  f_mgga_c_rmggac; f_mgga_c_rppscan; f_mgga_c_rregtm; f_mgga_c_rscan; f_mgga_c_scan;
  f_mgga_c_tpss; f_mgga_c_tpssloc; f_mgga_c_vsxc; f_mgga_xc_b97mv; f_mgga_xc_b98; f_mgga_xc_cc06;
  f_mgga_xc_lp90; f_mgga_xc_zlp].
Definition spin_index : list nat := [
  155; 156; 157; 158; 159; 160; 161; 162; 163; 164; 165; 166; 167; 168; 169; 170; 171; 172; 173;
  174; 175; 176; 177; 178; 179; 180; 181; 182; 183; 184; 185; 186; 187; 188; 189; 190; 191; 192;
  193; 0; 45; 90; 141; 1; 46; 91; 2; 47; 92; 3; 48; 93; 4; 49; 94; 5; 50; 95; 6; 51; 96; 7; 52;
  97; 8; 53; 98; 9; 54; 134; 149; 99; 10; 55; 100; 11; 56; 101; 12; 57; 102; 13; 58; 103; 142;
  14; 59; 104; 15; 60; 153; 146; 105; 16; 147; 61; 106; 17; 62; 107; 18; 63; 108; 19; 64; 109;
  20; 65; 110; 143; 21; 66; 111; 22; 148; 67; 112; 23; 68; 113; 24; 194; 195; 196; 197; 69; 198;
  199; 200; 114; 25; 70; 115; 201; 202; 203; 204; 205; 206; 207; 208; 209; 210; 211; 212; 213;
  214; 215; 216; 217; 218; 219; 220; 221; 222; 223; 224; 225; 226; 26; 135; 150; 71; 116; 27;
  136; 72; 151; 140; 117; 227; 228; 229; 230; 231; 232; 233; 234; 235; 236; 237; 238; 239; 240;
  241; 242; 243; 244; 245; 246; 247; 248; 249; 250; 251; 252; 253; 254; 255; 28; 73; 118; 29; 74;
  119; 30; 75; 144; 120; 152; 31; 76; 121; 32; 77; 122; 33; 78; 123; 34; 79; 124; 35; 137; 80;
  125; 36; 81; 138; 126; 37; 82; 127; 38; 83; 128; 39; 84; 129; 40; 85; 130; 41; 86; 131; 42; 87;
  132; 145; 43; 154; 88; 133; 44; 139; 89; 256; 257; 258; 259; 260].

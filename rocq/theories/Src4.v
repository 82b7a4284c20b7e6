(* Generated by tools/gen_src.py: verbatim text of the prebuilt programs. *)
From Coq Require Import List.
From Verif Require Import Bytes.
Import ListNotations.

(* gen_repo/impl/prebuilt/pol/hyb_mgga_xc_wb97mv.py *)
Definition pol_hyb_mgga_xc_wb97mv : list bstr := [
  "t2 = r0 - r1";
  "t3 = r0 + r1";
  "t5 = t2 / t3";
  "t6 = 0.1e1 + t5";
  "t7 = t6 <= p_a_zeta_threshold";
  "t8 = jnp.logical_or(r0 <= p_a_dens_threshold, t7)";
  "t9 = 3 ** (0.1e1 / 0.3e1)";
  "t12 = (0.1e1 / math.pi) ** (0.1e1 / 0.3e1)";
  "t13 = 4 ** (0.1e1 / 0.3e1)";
  "t14 = t13 ** 2";
  "t16 = 2 ** (0.1e1 / 0.3e1)";
  "t17 = t12 * t14 * t16";
  "t19 = 0.2e1 <= p_a_zeta_threshold";
  "t20 = p_a_zeta_threshold ** (0.1e1 / 0.3e1)";
  "t21 = t20 * p_a_zeta_threshold";
  "t23 = lax_cond(t19, t21, 0.2e1 * t16)";
  "t24 = t3 ** (0.1e1 / 0.3e1)";
  "t25 = t23 * t24";
  "t27 = (0.1e1 / t6) ** (0.1e1 / 0.3e1)";
  "t29 = 9 ** (0.1e1 / 0.3e1)";
  "t30 = t29 ** 2";
  "t31 = t12 ** 2";
  "t34 = t30 * t31 * p_a_cam_omega * t9";
  "t35 = 0.1e1 / t24";
  "t36 = t35 * t16";
  "t37 = lax_cond(t19, t20, t16)";
  "t38 = 0.1e1 / t37";
  "t42 = t34 * t36 * t27 * t38 / 0.18e2";
  "t44 = 0.135e1 < t42";
  "t45 = lax_cond(t44, t42, 0.135e1)";
  "t46 = t45 ** 2";
  "t49 = t46 ** 2";
  "t52 = t49 * t46";
  "t55 = t49 ** 2";
  "t67 = t55 ** 2";
  "t71 = lax_cond(t44, 0.135e1, t42)";
  "t72 = math.sqrt(math.pi)";
  "t75 = math.erf(0.1e1 / t71 / 0.2e1)";
  "t77 = t71 ** 2";
  "t80 = math.exp(-0.1e1 / t77 / 0.4e1)";
  "t91 = lax_cond(0.135e1 <= t42, 0.1e1 / t46 / 0.36e2 - 0.1e1 / t49 / 0.960e3 + 0.1e1 / t52 / 0.26880e5 - 0.1e1 / t55 / 0.829440e6 + 0.1e1 / t55 / t46 / 0.28385280e8 - 0.1e1 / t55 / t49 / 0.1073479680e10 + 0.1e1 / t55 / t52 / 0.44590694400e11 - 0.1e1 / t67 / 0.2021444812800e13, 0.1e1 - 0.8e1 / 0.3e1 * t71 * (t72 * t75 + 0.2e1 * t71 * (t80 - 0.3e1 / 0.2e1 - 0.2e1 * t77 * (t80 - 0.1e1))))";
  "t93 = params_a_c_x[0]";
  "t94 = params_a_c_x[1]";
  "t96 = r0 ** 2";
  "t97 = r0 ** (0.1e1 / 0.3e1)";
  "t98 = t97 ** 2";
  "t100 = 0.1e1 / t98 / t96";
  "t101 = s0 * t100";
  "t108 = params_a_c_x[2]";
  "t109 = 6 ** (0.1e1 / 0.3e1)";
  "t110 = t109 ** 2";
  "t111 = math.pi ** 2";
  "t112 = t111 ** (0.1e1 / 0.3e1)";
  "t113 = t112 ** 2";
  "t114 = t110 * t113";
  "t115 = 0.3e1 / 0.10e2 * t114";
  "t118 = tau0 / t98 / r0";
  "t119 = t115 - t118";
  "t121 = t115 + t118";
  "t122 = 0.1e1 / t121";
  "t129 = lax_cond(t8, 0, -0.3e1 / 0.64e2 * t6 * t9 * t17 * t25 / t27 * t91 * (t93 + 0.4e-2 * t94 * s0 * t100 / (0.1e1 + 0.4e-2 * t101) + t108 * t119 * t122))";
  "t131 = 0.1e1 - t5";
  "t132 = t131 <= p_a_zeta_threshold";
  "t133 = jnp.logical_or(r1 <= p_a_dens_threshold, t132)";
  "t137 = (0.1e1 / t131) ** (0.1e1 / 0.3e1)";
  "t142 = t34 * t36 * t137 * t38 / 0.18e2";
  "t144 = 0.135e1 < t142";
  "t145 = lax_cond(t144, t142, 0.135e1)";
  "t146 = t145 ** 2";
  "t149 = t146 ** 2";
  "t152 = t149 * t146";
  "t155 = t149 ** 2";
  "t167 = t155 ** 2";
  "t171 = lax_cond(t144, 0.135e1, t142)";
  "t174 = math.erf(0.1e1 / t171 / 0.2e1)";
  "t176 = t171 ** 2";
  "t179 = math.exp(-0.1e1 / t176 / 0.4e1)";
  "t190 = lax_cond(0.135e1 <= t142, 0.1e1 / t146 / 0.36e2 - 0.1e1 / t149 / 0.960e3 + 0.1e1 / t152 / 0.26880e5 - 0.1e1 / t155 / 0.829440e6 + 0.1e1 / t155 / t146 / 0.28385280e8 - 0.1e1 / t155 / t149 / 0.1073479680e10 + 0.1e1 / t155 / t152 / 0.44590694400e11 - 0.1e1 / t167 / 0.2021444812800e13, 0.1e1 - 0.8e1 / 0.3e1 * t171 * (t72 * t174 + 0.2e1 * t171 * (t179 - 0.3e1 / 0.2e1 - 0.2e1 * t176 * (t179 - 0.1e1))))";
  "t193 = r1 ** 2";
  "t194 = r1 ** (0.1e1 / 0.3e1)";
  "t195 = t194 ** 2";
  "t197 = 0.1e1 / t195 / t193";
  "t198 = s2 * t197";
  "t207 = tau1 / t195 / r1";
  "t208 = t115 - t207";
  "t210 = t115 + t207";
  "t211 = 0.1e1 / t210";
  "t218 = lax_cond(t133, 0, -0.3e1 / 0.64e2 * t131 * t9 * t17 * t25 / t137 * t190 * (t93 + 0.4e-2 * t94 * s2 * t197 / (0.1e1 + 0.4e-2 * t198) + t108 * t208 * t211))";
  "t219 = lax_cond(t7, p_a_zeta_threshold, t6)";
  "t220 = t9 * t12";
  "t221 = t220 * t14";
  "t222 = 0.1e1 / t20";
  "t223 = t6 ** (0.1e1 / 0.3e1)";
  "t225 = lax_cond(t7, t222, 0.1e1 / t223)";
  "t227 = t221 * t36 * t225";
  "t230 = math.sqrt(t227)";
  "t233 = t227 ** 0.15e1";
  "t235 = t9 ** 2";
  "t236 = t235 * t31";
  "t237 = t236 * t13";
  "t238 = t24 ** 2";
  "t239 = 0.1e1 / t238";
  "t240 = t16 ** 2";
  "t241 = t239 * t240";
  "t242 = t225 ** 2";
  "t244 = t237 * t241 * t242";
  "t250 = math.log(0.1e1 + 0.16081979498692535067e2 / (0.37978500000000000000e1 * t230 + 0.89690000000000000000e0 * t227 + 0.20477500000000000000e0 * t233 + 0.12323500000000000000e0 * t244))";
  "t252 = 0.621814e-1 * (0.1e1 + 0.53425000000000000000e-1 * t227) * t250";
  "t254 = lax_cond(0.0e0 <= p_a_zeta_threshold, t21, 0)";
  "t258 = 0.1e1 / (0.2e1 * t16 - 0.2e1)";
  "t259 = (t23 + t254 - 0.2e1) * t258";
  "t270 = math.log(0.1e1 + 0.32163958997385070134e2 / (0.70594500000000000000e1 * t230 + 0.15494250000000000000e1 * t227 + 0.42077500000000000000e0 * t233 + 0.15629250000000000000e0 * t244))";
  "t283 = math.log(0.1e1 + 0.29608749977793437516e2 / (0.51785000000000000000e1 * t230 + 0.90577500000000000000e0 * t227 + 0.11003250000000000000e0 * t233 + 0.12417750000000000000e0 * t244))";
  "t284 = (0.1e1 + 0.27812500000000000000e-1 * t227) * t283";
  "t293 = lax_cond(t8, 0, t219 * (-t252 + t259 * (-0.3109070e-1 * (0.1e1 + 0.51370000000000000000e-1 * t227) * t270 + t252 - 0.19751673498613801407e-1 * t284) + 0.19751673498613801407e-1 * t259 * t284) / 0.2e1)";
  "t294 = params_a_c_ss[0]";
  "t295 = params_a_c_ss[1]";
  "t296 = s0 ** 2";
  "t297 = t296 ** 2";
  "t299 = t96 ** 2";
  "t300 = t299 ** 2";
  "t305 = 0.1e1 + 0.2e0 * t101";
  "t306 = t305 ** 2";
  "t307 = t306 ** 2";
  "t312 = params_a_c_ss[2]";
  "t315 = params_a_c_ss[3]";
  "t316 = t119 ** 2";
  "t318 = t121 ** 2";
  "t321 = params_a_c_ss[4]";
  "t322 = t316 ** 2";
  "t324 = t318 ** 2";
  "t337 = lax_cond(t132, p_a_zeta_threshold, t131)";
  "t338 = t131 ** (0.1e1 / 0.3e1)";
  "t340 = lax_cond(t132, t222, 0.1e1 / t338)";
  "t342 = t221 * t36 * t340";
  "t345 = math.sqrt(t342)";
  "t348 = t342 ** 0.15e1";
  "t350 = t340 ** 2";
  "t352 = t237 * t241 * t350";
  "t358 = math.log(0.1e1 + 0.16081979498692535067e2 / (0.37978500000000000000e1 * t345 + 0.89690000000000000000e0 * t342 + 0.20477500000000000000e0 * t348 + 0.12323500000000000000e0 * t352))";
  "t360 = 0.621814e-1 * (0.1e1 + 0.53425000000000000000e-1 * t342) * t358";
  "t371 = math.log(0.1e1 + 0.32163958997385070134e2 / (0.70594500000000000000e1 * t345 + 0.15494250000000000000e1 * t342 + 0.42077500000000000000e0 * t348 + 0.15629250000000000000e0 * t352))";
  "t384 = math.log(0.1e1 + 0.29608749977793437516e2 / (0.51785000000000000000e1 * t345 + 0.90577500000000000000e0 * t342 + 0.11003250000000000000e0 * t348 + 0.12417750000000000000e0 * t352))";
  "t385 = (0.1e1 + 0.27812500000000000000e-1 * t342) * t384";
  "t394 = lax_cond(t133, 0, t337 * (-t360 + t259 * (-0.3109070e-1 * (0.1e1 + 0.51370000000000000000e-1 * t342) * t371 + t360 - 0.19751673498613801407e-1 * t385) + 0.19751673498613801407e-1 * t259 * t385) / 0.2e1)";
  "t395 = s2 ** 2";
  "t396 = t395 ** 2";
  "t398 = t193 ** 2";
  "t399 = t398 ** 2";
  "t404 = 0.1e1 + 0.2e0 * t198";
  "t405 = t404 ** 2";
  "t406 = t405 ** 2";
  "t413 = t208 ** 2";
  "t415 = t210 ** 2";
  "t418 = t413 ** 2";
  "t420 = t415 ** 2";
  "t434 = t220 * t14 * t35";
  "t437 = math.sqrt(t434)";
  "t440 = t434 ** 0.15e1";
  "t443 = t236 * t13 * t239";
  "t449 = math.log(0.1e1 + 0.16081979498692535067e2 / (0.37978500000000000000e1 * t437 + 0.89690000000000000000e0 * t434 + 0.20477500000000000000e0 * t440 + 0.12323500000000000000e0 * t443))";
  "t451 = 0.621814e-1 * (0.1e1 + 0.53425000000000000000e-1 * t434) * t449";
  "t452 = t2 ** 2";
  "t453 = t452 ** 2";
  "t454 = t3 ** 2";
  "t455 = t454 ** 2";
  "t459 = lax_cond(t7, t21, t223 * t6)";
  "t461 = lax_cond(t132, t21, t338 * t131)";
  "t463 = (t459 + t461 - 0.2e1) * t258";
  "t474 = math.log(0.1e1 + 0.32163958997385070134e2 / (0.70594500000000000000e1 * t437 + 0.15494250000000000000e1 * t434 + 0.42077500000000000000e0 * t440 + 0.15629250000000000000e0 * t443))";
  "t487 = math.log(0.1e1 + 0.29608749977793437516e2 / (0.51785000000000000000e1 * t437 + 0.90577500000000000000e0 * t434 + 0.11003250000000000000e0 * t440 + 0.12417750000000000000e0 * t443))";
  "t488 = (0.1e1 + 0.27812500000000000000e-1 * t434) * t487";
  "t500 = 0.3e1 / 0.10e2 * t114 * (t118 + t207)";
  "t502 = 0.2e1 * t118 * t207";
  "t503 = t500 - t502";
  "t505 = t500 + t502";
  "t509 = t503 ** 2";
  "t511 = t505 ** 2";
  "t512 = 0.1e1 / t511";
  "t516 = t101 + t198";
  "t521 = 0.1e1 / (0.1e1 + 0.30000000000000000000e-2 * t101 + 0.30000000000000000000e-2 * t198)";
  "t526 = t509 ** 2";
  "t527 = t526 * t509";
  "t529 = t511 ** 2";
  "t531 = 0.1e1 / t529 / t511";
  "res = t129 + t218 + t293 * (t294 + 0.16e-2 * t295 * t297 / t98 / t300 / t96 / t307 + t312 * t119 * t122 + t315 * t316 / t318 + 0.8e-2 * t321 * t322 / t324 * t296 * s0 / t300 / t306 / t305) + t394 * (t294 + 0.16e-2 * t295 * t396 / t195 / t399 / t193 / t406 + t312 * t208 * t211 + t315 * t413 / t415 + 0.8e-2 * t321 * t418 / t420 * t395 * s2 / t399 / t405 / t404) + (-t451 + t453 / t455 * t463 * (-0.3109070e-1 * (0.1e1 + 0.51370000000000000000e-1 * t434) * t474 + t451 - 0.19751673498613801407e-1 * t488) + 0.19751673498613801407e-1 * t463 * t488 - t293 - t394) * (params_a_c_os[0] + params_a_c_os[1] * t503 / t505 + params_a_c_os[2] * t509 * t512 + 0.30000000000000000000e-2 * params_a_c_os[3] * t509 * t512 * t516 * t521 + params_a_c_os[4] * t527 * t531 + 0.30000000000000000000e-2 * params_a_c_os[5] * t527 * t531 * t516 * t521)"]%b.

(* gen_repo/impl/prebuilt/unpol/hyb_mgga_xc_wb97mv.py *)
Definition unpol_hyb_mgga_xc_wb97mv : list bstr := [
  "t3 = 0.1e1 <= p_a_zeta_threshold";
  "t4 = jnp.logical_or(r0 / 0.2e1 <= p_a_dens_threshold, t3)";
  "t5 = 3 ** (0.1e1 / 0.3e1)";
  "t7 = (0.1e1 / math.pi) ** (0.1e1 / 0.3e1)";
  "t8 = t5 * t7";
  "t9 = 4 ** (0.1e1 / 0.3e1)";
  "t10 = t9 ** 2";
  "t11 = 2 ** (0.1e1 / 0.3e1)";
  "t14 = 0.2e1 <= p_a_zeta_threshold";
  "t15 = p_a_zeta_threshold ** (0.1e1 / 0.3e1)";
  "t16 = t15 * p_a_zeta_threshold";
  "t18 = lax_cond(t14, t16, 0.2e1 * t11)";
  "t19 = r0 ** (0.1e1 / 0.3e1)";
  "t21 = 9 ** (0.1e1 / 0.3e1)";
  "t22 = t21 ** 2";
  "t23 = t7 ** 2";
  "t26 = 0.1e1 / t19";
  "t28 = lax_cond(t14, t15, t11)";
  "t33 = t22 * t23 * p_a_cam_omega * t5 * t26 * t11 / t28 / 0.18e2";
  "t35 = 0.135e1 < t33";
  "t36 = lax_cond(t35, t33, 0.135e1)";
  "t37 = t36 ** 2";
  "t40 = t37 ** 2";
  "t43 = t40 * t37";
  "t46 = t40 ** 2";
  "t58 = t46 ** 2";
  "t62 = lax_cond(t35, 0.135e1, t33)";
  "t63 = math.sqrt(math.pi)";
  "t66 = math.erf(0.1e1 / t62 / 0.2e1)";
  "t68 = t62 ** 2";
  "t71 = math.exp(-0.1e1 / t68 / 0.4e1)";
  "t82 = lax_cond(0.135e1 <= t33, 0.1e1 / t37 / 0.36e2 - 0.1e1 / t40 / 0.960e3 + 0.1e1 / t43 / 0.26880e5 - 0.1e1 / t46 / 0.829440e6 + 0.1e1 / t46 / t37 / 0.28385280e8 - 0.1e1 / t46 / t40 / 0.1073479680e10 + 0.1e1 / t46 / t43 / 0.44590694400e11 - 0.1e1 / t58 / 0.2021444812800e13, 0.1e1 - 0.8e1 / 0.3e1 * t62 * (t63 * t66 + 0.2e1 * t62 * (t71 - 0.3e1 / 0.2e1 - 0.2e1 * t68 * (t71 - 0.1e1))))";
  "t86 = t11 ** 2";
  "t87 = r0 ** 2";
  "t88 = t19 ** 2";
  "t90 = 0.1e1 / t88 / t87";
  "t92 = s0 * t86";
  "t93 = t92 * t90";
  "t101 = 6 ** (0.1e1 / 0.3e1)";
  "t102 = t101 ** 2";
  "t103 = math.pi ** 2";
  "t104 = t103 ** (0.1e1 / 0.3e1)";
  "t105 = t104 ** 2";
  "t106 = t102 * t105";
  "t107 = 0.3e1 / 0.10e2 * t106";
  "t111 = tau0 * t86 / t88 / r0";
  "t112 = t107 - t111";
  "t114 = t107 + t111";
  "t115 = 0.1e1 / t114";
  "t122 = lax_cond(t4, 0, -0.3e1 / 0.64e2 * t8 * t10 * t11 * t18 * t19 * t82 * (params_a_c_x[0] + 0.4e-2 * params_a_c_x[1] * s0 * t86 * t90 / (0.1e1 + 0.4e-2 * t93) + params_a_c_x[2] * t112 * t115))";
  "t124 = lax_cond(t3, p_a_zeta_threshold, 1)";
  "t128 = lax_cond(t3, 0.1e1 / t15, 1)";
  "t130 = t8 * t10 * t26 * t11 * t128";
  "t133 = math.sqrt(t130)";
  "t136 = t130 ** 0.15e1";
  "t138 = t5 ** 2";
  "t139 = t138 * t23";
  "t141 = 0.1e1 / t88";
  "t143 = t128 ** 2";
  "t145 = t139 * t9 * t141 * t86 * t143";
  "t151 = math.log(0.1e1 + 0.16081979498692535067e2 / (0.37978500000000000000e1 * t133 + 0.89690000000000000000e0 * t130 + 0.20477500000000000000e0 * t136 + 0.12323500000000000000e0 * t145))";
  "t153 = 0.621814e-1 * (0.1e1 + 0.53425000000000000000e-1 * t130) * t151";
  "t155 = lax_cond(0.0e0 <= p_a_zeta_threshold, t16, 0)";
  "t159 = 0.1e1 / (0.2e1 * t11 - 0.2e1)";
  "t160 = (t18 + t155 - 0.2e1) * t159";
  "t171 = math.log(0.1e1 + 0.32163958997385070134e2 / (0.70594500000000000000e1 * t133 + 0.15494250000000000000e1 * t130 + 0.42077500000000000000e0 * t136 + 0.15629250000000000000e0 * t145))";
  "t184 = math.log(0.1e1 + 0.29608749977793437516e2 / (0.51785000000000000000e1 * t133 + 0.90577500000000000000e0 * t130 + 0.11003250000000000000e0 * t136 + 0.12417750000000000000e0 * t145))";
  "t185 = (0.1e1 + 0.27812500000000000000e-1 * t130) * t184";
  "t194 = lax_cond(t4, 0, t124 * (-t153 + t160 * (-0.3109070e-1 * (0.1e1 + 0.51370000000000000000e-1 * t130) * t171 + t153 - 0.19751673498613801407e-1 * t185) + 0.19751673498613801407e-1 * t160 * t185) / 0.2e1)";
  "t197 = s0 ** 2";
  "t198 = t197 ** 2";
  "t200 = t87 ** 2";
  "t201 = t200 ** 2";
  "t207 = 0.1e1 + 0.2e0 * t93";
  "t208 = t207 ** 2";
  "t209 = t208 ** 2";
  "t218 = t112 ** 2";
  "t220 = t114 ** 2";
  "t224 = t218 ** 2";
  "t226 = t220 ** 2";
  "t241 = t8 * t10 * t26";
  "t244 = math.sqrt(t241)";
  "t247 = t241 ** 0.15e1";
  "t250 = t139 * t9 * t141";
  "t256 = math.log(0.1e1 + 0.16081979498692535067e2 / (0.37978500000000000000e1 * t244 + 0.89690000000000000000e0 * t241 + 0.20477500000000000000e0 * t247 + 0.12323500000000000000e0 * t250))";
  "t259 = lax_cond(t3, t16, 1)";
  "t273 = math.log(0.1e1 + 0.29608749977793437516e2 / (0.51785000000000000000e1 * t244 + 0.90577500000000000000e0 * t241 + 0.11003250000000000000e0 * t247 + 0.12417750000000000000e0 * t250))";
  "t282 = 0.3e1 / 0.5e1 * t106 * t111";
  "t283 = tau0 ** 2";
  "t289 = 0.4e1 * t283 * t11 / t19 / t87 / r0";
  "t290 = t282 - t289";
  "t292 = t282 + t289";
  "t296 = t290 ** 2";
  "t298 = t292 ** 2";
  "t299 = 0.1e1 / t298";
  "t308 = t92 * t90 / (0.1e1 + 0.6e-2 * t93)";
  "t312 = t296 ** 2";
  "t313 = t312 * t296";
  "t315 = t298 ** 2";
  "t317 = 0.1e1 / t315 / t298";
  "res = 0.2e1 * t122 + 0.2e1 * t194 * (params_a_c_ss[0] + 0.64e-2 * params_a_c_ss[1] * t198 * t86 / t88 / t201 / t87 / t209 + params_a_c_ss[2] * t112 * t115 + params_a_c_ss[3] * t218 / t220 + 0.32e-1 * params_a_c_ss[4] * t224 / t226 * t197 * s0 / t201 / t208 / t207) + (-0.621814e-1 * (0.1e1 + 0.53425000000000000000e-1 * t241) * t256 + 0.19751673498613801407e-1 * (0.2e1 * t259 - 0.2e1) * t159 * (0.1e1 + 0.27812500000000000000e-1 * t241) * t273 - 0.2e1 * t194) * (params_a_c_os[0] + params_a_c_os[1] * t290 / t292 + params_a_c_os[2] * t296 * t299 + 0.6e-2 * params_a_c_os[3] * t296 * t299 * t308 + params_a_c_os[4] * t313 * t317 + 0.6e-2 * params_a_c_os[5] * t313 * t317 * t308)"]%b.

(* gen_repo/impl/prebuilt/pol/lda_c_1d_csc.py *)
Definition pol_lda_c_1d_csc : list bstr := [
  "t1 = r0 + r1";
  "t2 = 0.1e1 / t1";
  "t3 = t2 / 0.2e1";
  "t5 = t1 ** 2";
  "t6 = 0.1e1 / t5";
  "t15 = t3 ** params_a_para[9]";
  "t18 = math.log(0.1e1 + params_a_para[7] * t2 / 0.2e1 + params_a_para[8] * t15)";
  "t26 = t3 ** params_a_para[5]";
  "t31 = t3 ** params_a_para[6]";
  "t36 = (t3 + params_a_para[4] * t6 / 0.4e1) * t18 / (params_a_para[1] * t2 + 0.2e1 * params_a_para[2] * t26 + 0.2e1 * params_a_para[3] * t31 + 0.2e1 * params_a_para[0])";
  "t46 = t3 ** params_a_ferro[9]";
  "t49 = math.log(0.1e1 + params_a_ferro[7] * t2 / 0.2e1 + params_a_ferro[8] * t46)";
  "t57 = t3 ** params_a_ferro[5]";
  "t62 = t3 ** params_a_ferro[6]";
  "t70 = (r0 - r1) ** 2";
  "res = -t36 + (-(t3 + params_a_ferro[4] * t6 / 0.4e1) * t49 / (params_a_ferro[1] * t2 + 0.2e1 * params_a_ferro[2] * t57 + 0.2e1 * params_a_ferro[3] * t62 + 0.2e1 * params_a_ferro[0]) + t36) * t70 * t6"]%b.

(* gen_repo/impl/prebuilt/unpol/lda_c_1d_csc.py *)
Definition unpol_lda_c_1d_csc : list bstr := [
  "t1 = 0.1e1 / r0";
  "t2 = t1 / 0.2e1";
  "t4 = r0 ** 2";
  "t14 = t2 ** params_a_para[9]";
  "t17 = math.log(0.1e1 + params_a_para[7] * t1 / 0.2e1 + params_a_para[8] * t14)";
  "t25 = t2 ** params_a_para[5]";
  "t30 = t2 ** params_a_para[6]";
  "res = -(t2 + params_a_para[4] / t4 / 0.4e1) * t17 / (params_a_para[1] * t1 + 0.2e1 * params_a_para[2] * t25 + 0.2e1 * params_a_para[3] * t30 + 0.2e1 * params_a_para[0])"]%b.

(* gen_repo/impl/prebuilt/pol/lda_c_1d_loos.py *)
Definition pol_lda_c_1d_loos : list bstr := [
  "t1 = r0 + r1";
  "t5 = math.sqrt(0.1e1 + 0.61660000000000000000e0 / t1)";
  "t6 = t5 - 0.1e1";
  "t7 = t6 ** 2";
  "t8 = t1 ** 2";
  "t10 = math.sqrt(0.2e1)";
  "t11 = math.sqrt(math.pi)";
  "t13 = math.log(t10 * t11)";
  "t18 = 0.1e1 - 0.32435939020434641583e1 * t6 * t1";
  "t19 = t18 ** 2";
  "t28 = math.pi ** 2";
  "res = 0.10520901401373545762e2 * t7 * t8 * ((-0.3083e0 * t13 - 0.23122500000000000000e0) * t19 * t18 + 0.32435939020434641583e1 * (-0.12332e1 * t13 - 0.86328563835932653793e0) * t6 * t1 * t19 + 0.10520901401373545762e2 * (-t28 / 0.72e2 + 0.23159260460590334090e-1) * t7 * t8 * t18 + 0.24365629583459979481e0 * t7 * t6 * t8 * t1)"]%b.

(* gen_repo/impl/prebuilt/unpol/lda_c_1d_loos.py *)
Definition unpol_lda_c_1d_loos : list bstr := [
  "t4 = math.sqrt(0.1e1 + 0.61660000000000000000e0 / r0)";
  "t5 = t4 - 0.1e1";
  "t6 = t5 ** 2";
  "t7 = r0 ** 2";
  "t9 = math.sqrt(0.2e1)";
  "t10 = math.sqrt(math.pi)";
  "t12 = math.log(t9 * t10)";
  "t17 = 0.1e1 - 0.32435939020434641583e1 * t5 * r0";
  "t18 = t17 ** 2";
  "t27 = math.pi ** 2";
  "res = 0.10520901401373545762e2 * t6 * t7 * ((-0.3083e0 * t12 - 0.23122500000000000000e0) * t18 * t17 + 0.32435939020434641583e1 * (-0.12332e1 * t12 - 0.86328563835932653793e0) * t5 * r0 * t18 + 0.10520901401373545762e2 * (-t27 / 0.72e2 + 0.23159260460590334090e-1) * t6 * t7 * t17 + 0.24365629583459979481e0 * t6 * t5 * t7 * r0)"]%b.

(* gen_repo/impl/prebuilt/pol/lda_c_2d_amgb.py *)
Definition pol_lda_c_2d_amgb : list bstr := [
  "t1 = math.sqrt(math.pi)";
  "t2 = 0.1e1 / t1";
  "t3 = r0 + r1";
  "t4 = math.sqrt(t3)";
  "t6 = t2 / t4";
  "t9 = 0.1e1 / t3";
  "t10 = 0.1e1 / math.pi * t9";
  "t16 = 0.1e1 / t1 / math.pi / t4 / t3";
  "t20 = t6 ** 0.15e1";
  "t27 = math.log(0.1e1 + 0.1e1 / (0.10022e1 * t6 - 0.2069e-1 * t20 + 0.33997e0 * t10 + 0.1747e-1 * t16))";
  "t39 = math.log(0.1e1 + 0.1e1 / (0.4133e0 * t6 + 0.668467e-1 * t10 + 0.7799e-3 * t16))";
  "t42 = r0 - r1";
  "t43 = t42 ** 2";
  "t45 = t3 ** 2";
  "t46 = 0.1e1 / t45";
  "t57 = math.log(0.1e1 + 0.1e1 / (0.1424301e1 * t6 + 0.1163099e1 * t16))";
  "t60 = t43 ** 2";
  "t62 = t45 ** 2";
  "t63 = 0.1e1 / t62";
  "t66 = math.exp(-0.13386e1 * t6)";
  "t68 = math.sqrt(0.2e1)";
  "t71 = t42 * t9";
  "t72 = 0.1e1 + t71";
  "t74 = math.sqrt(p_a_zeta_threshold)";
  "t75 = t74 * p_a_zeta_threshold";
  "t76 = math.sqrt(t72)";
  "t78 = lax_cond(t72 <= p_a_zeta_threshold, t75, t76 * t72)";
  "t80 = 0.1e1 - t71";
  "t82 = math.sqrt(t80)";
  "t84 = lax_cond(t80 <= p_a_zeta_threshold, t75, t82 * t80)";
  "res = -0.1925e0 + (0.863136e-1 * t6 + 0.572384e-1 * t10 + 0.3362975e-2 * t16) * t27 + (0.117331e0 + (-0.3394e-1 * t6 - 0.766765e-2 * t10 - 0.915064469e-4 * t16) * t39) * t43 * t46 + (0.234188e-1 + (-0.37093e-1 * t6 + 0.163618e-1 * t10 - 0.272383828612e-1 * t16) * t57) * t60 * t63 - 0.4e1 / 0.3e1 * (t66 - 0.1e1) * t68 * t2 * t4 * (t78 / 0.2e1 + t84 / 0.2e1 - 0.1e1 - 0.3e1 / 0.8e1 * t43 * t46 - 0.3e1 / 0.128e3 * t60 * t63)"]%b.

(* gen_repo/impl/prebuilt/unpol/lda_c_2d_amgb.py *)
Definition unpol_lda_c_2d_amgb : list bstr := [
  "t1 = math.sqrt(math.pi)";
  "t2 = 0.1e1 / t1";
  "t3 = math.sqrt(r0)";
  "t5 = t2 / t3";
  "t9 = 0.1e1 / math.pi / r0";
  "t15 = 0.1e1 / t1 / math.pi / t3 / r0";
  "t19 = t5 ** 0.15e1";
  "t26 = math.log(0.1e1 + 0.1e1 / (0.10022e1 * t5 - 0.2069e-1 * t19 + 0.33997e0 * t9 + 0.1747e-1 * t15))";
  "t29 = math.exp(-0.13386e1 * t5)";
  "t31 = math.sqrt(0.2e1)";
  "t35 = math.sqrt(p_a_zeta_threshold)";
  "t37 = lax_cond(0.1e1 <= p_a_zeta_threshold, t35 * p_a_zeta_threshold, 1)";
  "res = -0.1925e0 + (0.863136e-1 * t5 + 0.572384e-1 * t9 + 0.3362975e-2 * t15) * t26 - 0.4e1 / 0.3e1 * (t29 - 0.1e1) * t31 * t2 * t3 * (t37 - 0.1e1)"]%b.

(* gen_repo/impl/prebuilt/pol/lda_c_2d_prm.py *)
Definition pol_lda_c_2d_prm : list bstr := [
  "t1 = math.sqrt(math.pi)";
  "t3 = math.sqrt(r0 + r1)";
  "t4 = t1 * t3";
  "t7 = 0.39274e1 * t3 + t1 / 0.2e1";
  "t9 = t3 / t7";
  "t11 = 0.39274e1 * t9 - 0.1e1";
  "t12 = 0.2e1 + params_a_c";
  "t13 = math.sqrt(t12)";
  "t22 = t7 ** 2";
  "t24 = t12 ** (-0.15e1)";
  "t28 = 0.1e1 + params_a_c";
  "t29 = math.sqrt(t28)";
  "res = 0.32416023070084253575e-1 * (0.19637000000000000000e1 * t4 * t11 / t13 + 0.39274e1 * t9 * t11 / t12 + 0.98185000000000000000e0 * t4 / t22 * t24 + 0.39274e1 * t4 * t11 / t29 + 0.39274e1 * t9 / t28) * math.pi"]%b.

(* gen_repo/impl/prebuilt/unpol/lda_c_2d_prm.py *)
Definition unpol_lda_c_2d_prm : list bstr := [
  "t1 = math.sqrt(math.pi)";
  "t2 = math.sqrt(r0)";
  "t3 = t1 * t2";
  "t6 = 0.39274e1 * t2 + t1 / 0.2e1";
  "t8 = t2 / t6";
  "t10 = 0.39274e1 * t8 - 0.1e1";
  "t11 = 0.2e1 + params_a_c";
  "t12 = math.sqrt(t11)";
  "t21 = t6 ** 2";
  "t23 = t11 ** (-0.15e1)";
  "t27 = 0.1e1 + params_a_c";
  "t28 = math.sqrt(t27)";
  "res = 0.32416023070084253575e-1 * (0.19637000000000000000e1 * t3 * t10 / t12 + 0.39274e1 * t8 * t10 / t11 + 0.98185000000000000000e0 * t3 / t21 * t23 + 0.39274e1 * t3 * t10 / t28 + 0.39274e1 * t8 / t27) * math.pi"]%b.

(* gen_repo/impl/prebuilt/pol/lda_c_chachiyo.py *)
Definition pol_lda_c_chachiyo : list bstr := [
  "t1 = 3 ** (0.1e1 / 0.3e1)";
  "t2 = t1 ** 2";
  "t5 = (0.1e1 / math.pi) ** (0.1e1 / 0.3e1)";
  "t7 = 4 ** (0.1e1 / 0.3e1)";
  "t9 = r0 + r1";
  "t10 = t9 ** (0.1e1 / 0.3e1)";
  "t11 = 0.1e1 / t5 * t7 * t10";
  "t15 = t5 ** 2";
  "t17 = t7 ** 2";
  "t19 = t10 ** 2";
  "t20 = 0.1e1 / t15 * t17 * t19";
  "t24 = math.log(0.1e1 + params_a_bp * t2 * t11 / 0.3e1 + params_a_cp * t1 * t20 / 0.3e1)";
  "t25 = params_a_ap * t24";
  "t33 = math.log(0.1e1 + params_a_bf * t2 * t11 / 0.3e1 + params_a_cf * t1 * t20 / 0.3e1)";
  "t38 = (r0 - r1) / t9";
  "t39 = 0.1e1 + t38";
  "t41 = p_a_zeta_threshold ** (0.1e1 / 0.3e1)";
  "t42 = t41 * p_a_zeta_threshold";
  "t43 = t39 ** (0.1e1 / 0.3e1)";
  "t45 = lax_cond(t39 <= p_a_zeta_threshold, t42, t43 * t39)";
  "t46 = 0.1e1 - t38";
  "t48 = t46 ** (0.1e1 / 0.3e1)";
  "t50 = lax_cond(t46 <= p_a_zeta_threshold, t42, t48 * t46)";
  "t53 = 2 ** (0.1e1 / 0.3e1)";
  "res = t25 + (params_a_af * t33 - t25) * (t45 + t50 - 0.2e1) / (0.2e1 * t53 - 0.2e1)"]%b.

(* gen_repo/impl/prebuilt/unpol/lda_c_chachiyo.py *)
Definition unpol_lda_c_chachiyo : list bstr := [
  "t1 = 3 ** (0.1e1 / 0.3e1)";
  "t2 = t1 ** 2";
  "t5 = (0.1e1 / math.pi) ** (0.1e1 / 0.3e1)";
  "t7 = 4 ** (0.1e1 / 0.3e1)";
  "t9 = r0 ** (0.1e1 / 0.3e1)";
  "t10 = 0.1e1 / t5 * t7 * t9";
  "t14 = t5 ** 2";
  "t16 = t7 ** 2";
  "t18 = t9 ** 2";
  "t19 = 0.1e1 / t14 * t16 * t18";
  "t23 = math.log(0.1e1 + params_a_bp * t2 * t10 / 0.3e1 + params_a_cp * t1 * t19 / 0.3e1)";
  "t24 = params_a_ap * t23";
  "t32 = math.log(0.1e1 + params_a_bf * t2 * t10 / 0.3e1 + params_a_cf * t1 * t19 / 0.3e1)";
  "t36 = p_a_zeta_threshold ** (0.1e1 / 0.3e1)";
  "t38 = lax_cond(0.1e1 <= p_a_zeta_threshold, t36 * p_a_zeta_threshold, 1)";
  "t42 = 2 ** (0.1e1 / 0.3e1)";
  "res = t24 + (params_a_af * t32 - t24) * (0.2e1 * t38 - 0.2e1) / (0.2e1 * t42 - 0.2e1)"]%b.

(* gen_repo/impl/prebuilt/pol/lda_c_chachiyo_mod.py *)
Definition pol_lda_c_chachiyo_mod : list bstr := [
  "t1 = 3 ** (0.1e1 / 0.3e1)";
  "t2 = t1 ** 2";
  "t5 = (0.1e1 / math.pi) ** (0.1e1 / 0.3e1)";
  "t7 = 4 ** (0.1e1 / 0.3e1)";
  "t9 = r0 + r1";
  "t10 = t9 ** (0.1e1 / 0.3e1)";
  "t11 = 0.1e1 / t5 * t7 * t10";
  "t15 = t5 ** 2";
  "t17 = t7 ** 2";
  "t19 = t10 ** 2";
  "t20 = 0.1e1 / t15 * t17 * t19";
  "t24 = math.log(0.1e1 + params_a_bp * t2 * t11 / 0.3e1 + params_a_cp * t1 * t20 / 0.3e1)";
  "t25 = params_a_ap * t24";
  "t33 = math.log(0.1e1 + params_a_bf * t2 * t11 / 0.3e1 + params_a_cf * t1 * t20 / 0.3e1)";
  "t38 = (r0 - r1) / t9";
  "t39 = 0.1e1 + t38";
  "t41 = p_a_zeta_threshold ** (0.1e1 / 0.3e1)";
  "t42 = t41 ** 2";
  "t43 = t39 ** (0.1e1 / 0.3e1)";
  "t44 = t43 ** 2";
  "t45 = lax_cond(t39 <= p_a_zeta_threshold, t42, t44)";
  "t46 = 0.1e1 - t38";
  "t48 = t46 ** (0.1e1 / 0.3e1)";
  "t49 = t48 ** 2";
  "t50 = lax_cond(t46 <= p_a_zeta_threshold, t42, t49)";
  "t52 = t45 / 0.2e1 + t50 / 0.2e1";
  "t53 = t52 ** 2";
  "res = t25 + (params_a_af * t33 - t25) * (-0.2e1 * t53 * t52 + 0.2e1)"]%b.

(* gen_repo/impl/prebuilt/unpol/lda_c_chachiyo_mod.py *)
Definition unpol_lda_c_chachiyo_mod : list bstr := [
  "t1 = 3 ** (0.1e1 / 0.3e1)";
  "t2 = t1 ** 2";
  "t5 = (0.1e1 / math.pi) ** (0.1e1 / 0.3e1)";
  "t7 = 4 ** (0.1e1 / 0.3e1)";
  "t9 = r0 ** (0.1e1 / 0.3e1)";
  "t10 = 0.1e1 / t5 * t7 * t9";
  "t14 = t5 ** 2";
  "t16 = t7 ** 2";
  "t18 = t9 ** 2";
  "t19 = 0.1e1 / t14 * t16 * t18";
  "t23 = math.log(0.1e1 + params_a_bp * t2 * t10 / 0.3e1 + params_a_cp * t1 * t19 / 0.3e1)";
  "t24 = params_a_ap * t23";
  "t32 = math.log(0.1e1 + params_a_bf * t2 * t10 / 0.3e1 + params_a_cf * t1 * t19 / 0.3e1)";
  "t36 = p_a_zeta_threshold ** (0.1e1 / 0.3e1)";
  "t37 = t36 ** 2";
  "t38 = lax_cond(0.1e1 <= p_a_zeta_threshold, t37, 1)";
  "t39 = t38 ** 2";
  "res = t24 + (params_a_af * t32 - t24) * (-0.2e1 * t39 * t38 + 0.2e1)"]%b.

(* gen_repo/impl/prebuilt/pol/lda_c_gk72.py *)
Definition pol_lda_c_gk72 : list bstr := [
  "t1 = 3 ** (0.1e1 / 0.3e1)";
  "t3 = (0.1e1 / math.pi) ** (0.1e1 / 0.3e1)";
  "t4 = t1 * t3";
  "t5 = 4 ** (0.1e1 / 0.3e1)";
  "t6 = t5 ** 2";
  "t8 = (r0 + r1) ** (0.1e1 / 0.3e1)";
  "t10 = t6 / t8";
  "t11 = t4 * t10";
  "t12 = t11 / 0.4e1";
  "t14 = math.log(t12)";
  "t24 = t1 ** 2";
  "t30 = math.sqrt(0.4e1)";
  "t31 = math.sqrt(t11)";
  "t36 = t3 ** 2";
  "t39 = t8 ** 2";
  "t53 = lax_cond(t12 < 0.10e2, -0.6156e-1 + 0.1898e-1 * t14, 0.14600000000000000000e0 * t24 / t3 * t5 * t8 + 0.53000000000000000000e1 * t30 / t31 / t11 - 0.49000000000000000000e0 * t1 / t36 * t6 * t39 - 0.16000000000000000000e1 * t30 / t31 / t24 / t36 / t5 * t39)";
  "res = lax_cond(t12 < 0.7e0, 0.311e-1 * t14 - 0.48e-1 + 0.22500000000000000000e-2 * t4 * t10 * t14 - 0.42500000000000000000e-2 * t11, t53)"]%b.

(* gen_repo/impl/prebuilt/unpol/lda_c_gk72.py *)
Definition unpol_lda_c_gk72 : list bstr := [
  "t1 = 3 ** (0.1e1 / 0.3e1)";
  "t3 = (0.1e1 / math.pi) ** (0.1e1 / 0.3e1)";
  "t4 = t1 * t3";
  "t5 = 4 ** (0.1e1 / 0.3e1)";
  "t6 = t5 ** 2";
  "t7 = r0 ** (0.1e1 / 0.3e1)";
  "t9 = t6 / t7";
  "t10 = t4 * t9";
  "t11 = t10 / 0.4e1";
  "t13 = math.log(t11)";
  "t23 = t1 ** 2";
  "t29 = math.sqrt(0.4e1)";
  "t30 = math.sqrt(t10)";
  "t35 = t3 ** 2";
  "t38 = t7 ** 2";
  "t52 = lax_cond(t11 < 0.10e2, -0.6156e-1 + 0.1898e-1 * t13, 0.14600000000000000000e0 * t23 / t3 * t5 * t7 + 0.53000000000000000000e1 * t29 / t30 / t10 - 0.49000000000000000000e0 * t1 / t35 * t6 * t38 - 0.16000000000000000000e1 * t29 / t30 / t23 / t35 / t5 * t38)";
  "res = lax_cond(t11 < 0.7e0, 0.311e-1 * t13 - 0.48e-1 + 0.22500000000000000000e-2 * t4 * t9 * t13 - 0.42500000000000000000e-2 * t10, t52)"]%b.

(* gen_repo/impl/prebuilt/pol/lda_c_gombas.py *)
Definition pol_lda_c_gombas : list bstr := [
  "t2 = (r0 + r1) ** (0.1e1 / 0.3e1)";
  "t3 = 0.1e1 / t2";
  "t10 = math.log((t3 + 0.239e1) * t2)";
  "res = -0.357e-1 / (0.1e1 + 0.56200000000000000000e-1 * t3) - 0.311e-1 * t10"]%b.

(* gen_repo/impl/prebuilt/unpol/lda_c_gombas.py *)
Definition unpol_lda_c_gombas : list bstr := [
  "t1 = r0 ** (0.1e1 / 0.3e1)";
  "t2 = 0.1e1 / t1";
  "t9 = math.log((t2 + 0.239e1) * t1)";
  "res = -0.357e-1 / (0.1e1 + 0.56200000000000000000e-1 * t2) - 0.311e-1 * t9"]%b.

(* gen_repo/impl/prebuilt/pol/lda_c_hl.py *)
Definition pol_lda_c_hl : list bstr := [
  "t2 = 0.1e1 / math.pi";
  "t3 = r0 + r1";
  "t4 = 0.1e1 / t3";
  "t5 = t2 * t4";
  "t6 = params_a_hl_r[0]";
  "t7 = t6 ** 2";
  "t13 = 3 ** (0.1e1 / 0.3e1)";
  "t14 = t13 ** 2";
  "t15 = t2 ** (0.1e1 / 0.3e1)";
  "t17 = t14 / t15";
  "t18 = 4 ** (0.1e1 / 0.3e1)";
  "t19 = t3 ** (0.1e1 / 0.3e1)";
  "t20 = t18 * t19";
  "t25 = math.log(0.1e1 + t17 * t20 * t6 / 0.3e1)";
  "t27 = t15 ** 2";
  "t28 = t14 * t27";
  "t29 = t19 ** 2";
  "t31 = t18 / t29";
  "t36 = t13 * t15";
  "t37 = t18 ** 2";
  "t39 = t37 / t19";
  "t45 = params_a_hl_c[0] * ((0.1e1 + 0.3e1 / 0.4e1 * t5 / t7 / t6) * t25 - t28 * t31 / t7 / 0.4e1 + t36 * t39 / t6 / 0.8e1 - 0.1e1 / 0.3e1)";
  "t47 = (r0 - r1) * t4";
  "t48 = 0.1e1 + t47";
  "t50 = p_a_zeta_threshold ** (0.1e1 / 0.3e1)";
  "t51 = t50 * p_a_zeta_threshold";
  "t52 = t48 ** (0.1e1 / 0.3e1)";
  "t54 = lax_cond(t48 <= p_a_zeta_threshold, t51, t52 * t48)";
  "t55 = 0.1e1 - t47";
  "t57 = t55 ** (0.1e1 / 0.3e1)";
  "t59 = lax_cond(t55 <= p_a_zeta_threshold, t51, t57 * t55)";
  "t61 = 2 ** (0.1e1 / 0.3e1)";
  "t67 = params_a_hl_r[1]";
  "t68 = t67 ** 2";
  "t78 = math.log(0.1e1 + t17 * t20 * t67 / 0.3e1)";
  "res = -t45 + (t54 + t59 - 0.2e1) / (0.2e1 * t61 - 0.2e1) * (-params_a_hl_c[1] * ((0.1e1 + 0.3e1 / 0.4e1 * t5 / t68 / t67) * t78 - t28 * t31 / t68 / 0.4e1 + t36 * t39 / t67 / 0.8e1 - 0.1e1 / 0.3e1) + t45)"]%b.

(* gen_repo/impl/prebuilt/unpol/lda_c_hl.py *)
Definition unpol_lda_c_hl : list bstr := [
  "t2 = 0.1e1 / math.pi";
  "t4 = t2 / r0";
  "t5 = params_a_hl_r[0]";
  "t6 = t5 ** 2";
  "t12 = 3 ** (0.1e1 / 0.3e1)";
  "t13 = t12 ** 2";
  "t14 = t2 ** (0.1e1 / 0.3e1)";
  "t16 = t13 / t14";
  "t17 = 4 ** (0.1e1 / 0.3e1)";
  "t18 = r0 ** (0.1e1 / 0.3e1)";
  "t19 = t17 * t18";
  "t24 = math.log(0.1e1 + t16 * t19 * t5 / 0.3e1)";
  "t26 = t14 ** 2";
  "t27 = t13 * t26";
  "t28 = t18 ** 2";
  "t30 = t17 / t28";
  "t35 = t12 * t14";
  "t36 = t17 ** 2";
  "t38 = t36 / t18";
  "t44 = params_a_hl_c[0] * ((0.1e1 + 0.3e1 / 0.4e1 * t4 / t6 / t5) * t24 - t27 * t30 / t6 / 0.4e1 + t35 * t38 / t5 / 0.8e1 - 0.1e1 / 0.3e1)";
  "t46 = p_a_zeta_threshold ** (0.1e1 / 0.3e1)";
  "t48 = lax_cond(0.1e1 <= p_a_zeta_threshold, t46 * p_a_zeta_threshold, 1)";
  "t51 = 2 ** (0.1e1 / 0.3e1)";
  "t57 = params_a_hl_r[1]";
  "t58 = t57 ** 2";
  "t68 = math.log(0.1e1 + t16 * t19 * t57 / 0.3e1)";
  "res = -t44 + (0.2e1 * t48 - 0.2e1) / (0.2e1 * t51 - 0.2e1) * (-params_a_hl_c[1] * ((0.1e1 + 0.3e1 / 0.4e1 * t4 / t58 / t57) * t68 - t27 * t30 / t58 / 0.4e1 + t35 * t38 / t57 / 0.8e1 - 0.1e1 / 0.3e1) + t44)"]%b.

(* gen_repo/impl/prebuilt/pol/lda_c_lp96.py *)
Definition pol_lda_c_lp96 : list bstr := [
  "t2 = (r0 + r1) ** (0.1e1 / 0.3e1)";
  "t5 = t2 ** 2";
  "res = params_a_C1 + params_a_C2 / t2 + params_a_C3 / t5"]%b.

(* gen_repo/impl/prebuilt/unpol/lda_c_lp96.py *)
Definition unpol_lda_c_lp96 : list bstr := [
  "t1 = r0 ** (0.1e1 / 0.3e1)";
  "t4 = t1 ** 2";
  "res = params_a_C1 + params_a_C2 / t1 + params_a_C3 / t4"]%b.

(* gen_repo/impl/prebuilt/pol/lda_c_ml1.py *)
Definition pol_lda_c_ml1 : list bstr := [
  "t1 = r0 + r1";
  "t2 = r0 - r1";
  "t4 = t2 / t1";
  "t5 = abs(t4)";
  "t8 = t2 ** 2";
  "t9 = t1 ** 2";
  "t13 = t1 ** (0.1e1 / 0.3e1)";
  "t17 = p_a_zeta_threshold - 0.1e1";
  "t21 = lax_cond(0.1e1 - t4 <= p_a_zeta_threshold, -t17, t4)";
  "t22 = lax_cond(0.1e1 + t4 <= p_a_zeta_threshold, t17, t21)";
  "t23 = 0.1e1 + t22";
  "t24 = t23 ** params_a_q";
  "t25 = 0.1e1 - t22";
  "t26 = t25 ** params_a_q";
  "t27 = t24 + t26";
  "t28 = t22 ** 2";
  "t30 = (0.1e1 - t28) ** (0.1e1 / 0.3e1)";
  "t32 = t23 ** (0.1e1 / 0.3e1)";
  "t33 = t25 ** (0.1e1 / 0.3e1)";
  "t34 = t32 + t33";
  "t42 = 0.1e1 / t13";
  "t43 = 0.1e1 / params_a_fc";
  "t48 = 0.1e1 / t27 / t30 * t34";
  "t49 = t42 * t43 * t48";
  "t52 = math.log(0.1e1 + 0.91959623973811018799e-1 * t49)";
  "t58 = t13 ** 2";
  "t60 = params_a_fc ** 2";
  "t63 = t27 ** 2";
  "t65 = t30 ** 2";
  "t68 = t34 ** 2";
  "t75 = lax_cond(0.1e1 - t5 <= p_a_zeta_threshold, 0, (0.1e1 - t8 / t9) * (-0.2763169e1 / (0.1e1 + 0.10874334072525e2 * t13 * params_a_fc * t27 * t30 / t34) + 0.28144540420067767464e0 * t52 * t42 * t43 * t48 + 0.25410002852601321894e0 * t49 - 0.49248579417833934399e-1 / t58 / t60 / t63 / t65 * t68) / 0.4e1)";
  "res = t1 * t75"]%b.

(* gen_repo/impl/prebuilt/unpol/lda_c_ml1.py *)
Definition unpol_lda_c_ml1 : list bstr := [
  "t1 = 0.1e1 <= p_a_zeta_threshold";
  "t2 = r0 ** (0.1e1 / 0.3e1)";
  "t4 = p_a_zeta_threshold - 0.1e1";
  "t6 = lax_cond(t1, -t4, 0)";
  "t7 = lax_cond(t1, t4, t6)";
  "t8 = 0.1e1 + t7";
  "t9 = t8 ** params_a_q";
  "t10 = 0.1e1 - t7";
  "t11 = t10 ** params_a_q";
  "t12 = t9 + t11";
  "t13 = t7 ** 2";
  "t15 = (0.1e1 - t13) ** (0.1e1 / 0.3e1)";
  "t17 = t8 ** (0.1e1 / 0.3e1)";
  "t18 = t10 ** (0.1e1 / 0.3e1)";
  "t19 = t17 + t18";
  "t27 = 0.1e1 / t2";
  "t28 = 0.1e1 / params_a_fc";
  "t33 = 0.1e1 / t12 / t15 * t19";
  "t34 = t27 * t28 * t33";
  "t37 = math.log(0.1e1 + 0.91959623973811018799e-1 * t34)";
  "t43 = t2 ** 2";
  "t45 = params_a_fc ** 2";
  "t48 = t12 ** 2";
  "t50 = t15 ** 2";
  "t53 = t19 ** 2";
  "t58 = lax_cond(t1, 0, -0.69079225000000000000e0 / (0.1e1 + 0.10874334072525e2 * t2 * params_a_fc * t12 * t15 / t19) + 0.70361351050169418660e-1 * t37 * t27 * t28 * t33 + 0.63525007131503304735e-1 * t34 - 0.12312144854458483600e-1 / t43 / t45 / t48 / t50 * t53)";
  "res = r0 * t58"]%b.

(* gen_repo/impl/prebuilt/pol/lda_c_pk09.py *)
Definition pol_lda_c_pk09 : list bstr := [
  "t1 = r0 + r1";
  "t2 = r0 - r1";
  "t3 = t2 ** 2";
  "t4 = t1 ** 2";
  "t6 = t3 / t4";
  "t8 = 4 ** (0.1e1 / 0.3e1)";
  "t9 = t8 ** 2";
  "t10 = 3 ** (0.1e1 / 0.3e1)";
  "t11 = 0.1e1 / math.pi";
  "t12 = t11 ** (0.1e1 / 0.3e1)";
  "t14 = t1 ** (0.1e1 / 0.3e1)";
  "t15 = 0.1e1 / t14";
  "t17 = t10 * t12 * t9 * t15";
  "t18 = t17 ** (0.1e1 / 0.3e1)";
  "t19 = t9 * t18";
  "t21 = math.exp(-0.20932594558070200000e0 * t19)";
  "t22 = 4 ** (0.1e1 / 0.4e1)";
  "t23 = t22 ** 2";
  "t26 = t17 ** (0.1e1 / 0.4e1)";
  "t30 = math.exp(-0.25916439866088000000e0 * t19)";
  "t34 = 0.538074483500437e0 - 0.55652374774629750000e0 * t21 * t23 * t22 * t26 + 0.65492746474079450000e0 * t30 * t9 * t18";
  "t35 = t34 ** 2";
  "t37 = math.pi ** 2";
  "t38 = t37 ** (0.1e1 / 0.3e1)";
  "t39 = t38 * t37";
  "t41 = t14 * t1";
  "t42 = 0.1e1 / t1";
  "t43 = t2 * t42";
  "t44 = 0.1e1 + t43";
  "t45 = t44 <= p_a_zeta_threshold";
  "t46 = p_a_zeta_threshold ** (0.1e1 / 0.3e1)";
  "t47 = t44 ** (0.1e1 / 0.3e1)";
  "t48 = lax_cond(t45, t46, t47)";
  "t49 = t48 ** 2";
  "t51 = 0.1e1 - t43";
  "t52 = t51 <= p_a_zeta_threshold";
  "t53 = t51 ** (0.1e1 / 0.3e1)";
  "t54 = lax_cond(t52, t46, t53)";
  "t55 = t54 ** 2";
  "t56 = t10 * t38";
  "t61 = t56 * t14 * t48 + t56 * t14 * t54";
  "t62 = t61 ** 2";
  "t66 = t35 * t10 * t39 * t41 * t49 * t55 / t62";
  "t68 = t10 ** 2";
  "t70 = t38 ** 2";
  "t72 = t14 ** 2";
  "t77 = t34 * t68 * t70 * t72 * t48 * t54 / t61";
  "t79 = 0.3403111393738590780e0 * t66 + 0.452548339959390416e-1 * t77 + 0.531736155271654809e-2";
  "t83 = math.atan(0.1187931309903801598e2 * t77 + 0.236958012866641818e1)";
  "t88 = 0.1e1 / t34";
  "t89 = t88 * t10";
  "t91 = 0.1e1 / t70";
  "t92 = 0.1e1 / t72";
  "t93 = t91 * t92";
  "t94 = 0.1e1 / t48";
  "t95 = 0.1e1 / t54";
  "t96 = t94 * t95";
  "t98 = t93 * t96 * t61";
  "t101 = math.log(t79)";
  "t109 = 0.2e1 * t77";
  "t110 = math.log(t109)";
  "t122 = t92 * t94 * t95 * t61";
  "t123 = t89 * t91 * t122";
  "t125 = 0.1e1 / t35";
  "t127 = 0.1e1 / t39";
  "t129 = 0.1e1 / t41";
  "t130 = 0.1e1 / t49";
  "t132 = 0.1e1 / t55";
  "t134 = t129 * t130 * t132 * t62";
  "t135 = t125 * t68 * t127 * t134";
  "t142 = t10 * t91";
  "t149 = math.log(0.4812726287291520984e1 * t66 + 0.64e0 * t77 + 0.751988482389300153e-1)";
  "t159 = math.log(t109 + 0.482257181994472723e0)";
  "t168 = math.log(0.60000000000000000000e1 * t66 + 0.821419393556370918e0 * t77 + 0.105323524476768857e0)";
  "t177 = math.atan(0.160041105570901272e0 / (0.156250e1 * t77 + 0.32086695060795739e0))";
  "t187 = math.sqrt(0.30000000000000000000e1 * t66 + 0.505765839233979018e0 * t77 + 0.720485831127149779e-1)";
  "t190 = math.atanh((0.268418671319107341e0 + 0.942121195869983724e0 * t77) / t187)";
  "t198 = math.log(0.9375000000000000000e1 * t66 + 0.1246694626254477116e1 * t77 + 0.146484374999999999e0)";
  "t208 = 0.1e1 / t79 * (-t83 * (0.22155652738222968e1 * t66 + 0.2946275542389858e0 * t77 + 0.3461820740347690e-1) * t89 * t98 / 0.6e1 - t101 * (0.114922710384051372e1 * t66 + 0.15282509383508946e0 * t77 + 0.1795667349750801e-1) * t89 * t98 / 0.6e1 + t110 * (0.22984542076810248e1 * t66 + 0.3056501876701794e0 * t77 + 0.3591334699501599e-1) * t89 * t98 / 0.6e1 - 0.102377731051917540e0 * t77 + 0.101508307543839117e1 + 0.14975624337724556833e0 * t123 + 0.61671487076709944167e-2 * t135) - 0.22079848381299059167e2 * t123 - 0.90004085699103157778e0 * t135 - 0.37610742193750634333e1 * t110 * t88 * t142 * t122 + 0.18805371096875317167e1 * t149 * t88 * t142 * t122 + 0.19489173774580151667e2 * t83 * t88 * t142 * t122 + 0.49373337174483548167e1 * t159 * t88 * t142 * t122 - 0.41150663529849592833e-1 * t89 * t93 * t96 * t61 * t168 + 0.18635258017632964667e2 * t177 * t88 * t142 * t122 - 0.22140749178833072667e1 * t190 * t88 * t142 * t122 - 0.24275161951943278333e1 * t198 * t88 * t142 * t122 - 0.11846959580306418694e1 * t187 * t125 * t68 * t127 * t134";
  "t211 = p_a_zeta_threshold ** 2";
  "t212 = t44 ** 2";
  "t213 = lax_cond(t45, t211, t212)";
  "t215 = math.exp(-0.42734869200542000000e0 * t19)";
  "t217 = t18 ** 2";
  "t221 = math.exp(-0.11739612251904750000e0 * t19)";
  "t225 = 0.41081146652128e0 + 0.14983581422587875000e0 * t215 * t8 * t217 + 0.19280802104870250000e-1 * t221 * t9 * t18";
  "t226 = t225 ** 2";
  "t228 = t12 ** 2";
  "t231 = t68 * t228 * t8 * t92";
  "t233 = t11 * t42";
  "t238 = t10 * t12 * t11 * t9 * t129";
  "t254 = (-0.113693369789727190e3 + 0.60012553781967786000e1 * t17 + 0.12335328239599176875e2 * t231 - 0.17868177912628447650e2 * t233 + 0.17701513906783214888e0 * t238 + 0.54944839533438375000e-4 * t68 * t228 * t11 * t8 / t72 / t1) / (-0.10974263493216910e3 + 0.40665782361060603750e1 * t17 + 0.13600858284347709150e2 * t231 - 0.18865507428140992500e2 * t233 + 0.18750000000000000000e0 * t238)";
  "t255 = 0.1180131465463191050e1 * t43";
  "t256 = 0.142693041498421640e1 * t6";
  "t260 = t3 * t2 / t4 / t1";
  "t261 = 0.580344063812247980e0 * t260";
  "t262 = t3 ** 2";
  "t263 = t4 ** 2";
  "t266 = 0.1099122367291440e-1 * t262 / t263";
  "t268 = 0.209708505883490736e1 * t43";
  "t269 = 0.252188183586948180e1 * t6";
  "t270 = 0.10e1 * t260";
  "t275 = 0.128e1 * t254 * (-0.32481568604919886e0 + t255 - t256 + t261 - t266) / (-0.57786103193239430e0 + t268 - t269 + t270)";
  "t276 = p_a_zeta_threshold ** t275";
  "t277 = t44 ** t275";
  "t278 = lax_cond(t45, t276, t277)";
  "t279 = t51 ** t275";
  "t280 = lax_cond(t52, t276, t279)";
  "t281 = t278 + t280";
  "t282 = t281 ** 2";
  "t286 = t70 * t72";
  "t288 = t226 / t282 * t68 * t286 * t49";
  "t293 = t38 * t14";
  "t295 = t225 / t281 * t10 * t293 * t48";
  "t297 = 0.1134370464579530260e0 * t288 + 0.452548339959390416e-1 * t295 + 0.531736155271654809e-2";
  "t301 = math.atan(0.1187931309903801598e2 * t295 + 0.236958012866641818e1)";
  "t306 = 0.1e1 / t225";
  "t307 = t306 * t281";
  "t309 = 0.1e1 / t38";
  "t310 = t68 * t309";
  "t312 = t310 * t15 * t94";
  "t315 = math.log(t297)";
  "t323 = 0.2e1 * t295";
  "t324 = math.log(t323)";
  "t333 = t307 * t68";
  "t334 = t309 * t15";
  "t336 = t333 * t334 * t94";
  "t338 = 0.1e1 / t226";
  "t342 = t338 * t282 * t10 * t93 * t130";
  "t355 = math.log(0.1604242095763840328e1 * t288 + 0.64e0 * t295 + 0.751988482389300153e-1)";
  "t365 = math.log(t323 + 0.482257181994472723e0)";
  "t373 = math.log(0.20000000000000000000e1 * t288 + 0.821419393556370918e0 * t295 + 0.105323524476768857e0)";
  "t382 = math.atan(0.160041105570901272e0 / (0.156250e1 * t295 + 0.32086695060795739e0))";
  "t392 = math.sqrt(0.10000000000000000000e1 * t288 + 0.505765839233979018e0 * t295 + 0.720485831127149779e-1)";
  "t395 = math.atanh((0.268418671319107341e0 + 0.942121195869983724e0 * t295) / t392)";
  "t403 = math.log(0.3125000000000000000e1 * t288 + 0.1246694626254477116e1 * t295 + 0.146484374999999999e0)";
  "t414 = 0.1e1 / t297 * (-t301 * (0.7385217579407656e0 * t288 + 0.2946275542389858e0 * t295 + 0.3461820740347690e-1) * t307 * t312 / 0.6e1 - t315 * (0.38307570128017124e0 * t288 + 0.15282509383508946e0 * t295 + 0.1795667349750801e-1) * t307 * t312 / 0.6e1 + t324 * (0.7661514025603416e0 * t288 + 0.3056501876701794e0 * t295 + 0.3591334699501599e-1) * t307 * t312 / 0.6e1 - 0.102377731051917540e0 * t295 + 0.101508307543839117e1 + 0.14975624337724556833e0 * t336 + 0.18501446123012983250e-1 * t342) - 0.22079848381299059167e2 * t336 - 0.27001225709730947333e1 * t342 - 0.37610742193750634333e1 * t324 * t306 * t281 * t312 + 0.18805371096875317167e1 * t355 * t306 * t281 * t312 + 0.19489173774580151667e2 * t301 * t306 * t281 * t312 + 0.49373337174483548167e1 * t365 * t306 * t281 * t312 - 0.41150663529849592833e-1 * t333 * t334 * t94 * t373 + 0.18635258017632964667e2 * t382 * t306 * t281 * t312 - 0.22140749178833072667e1 * t395 * t306 * t281 * t312 - 0.24275161951943278333e1 * t403 * t306 * t281 * t312 - 0.35540878740919256083e1 * t392 * t338 * t282 * t142 * t92 * t130";
  "t417 = t51 ** 2";
  "t418 = lax_cond(t52, t211, t417)";
  "t424 = 0.128e1 * t254 * (-0.32481568604919886e0 - t255 - t256 - t261 - t266) / (-0.57786103193239430e0 - t268 - t269 - t270)";
  "t425 = p_a_zeta_threshold ** t424";
  "t426 = t51 ** t424";
  "t427 = lax_cond(t52, t425, t426)";
  "t428 = t44 ** t424";
  "t429 = lax_cond(t45, t425, t428)";
  "t430 = t427 + t429";
  "t431 = t430 ** 2";
  "t436 = t226 / t431 * t68 * t286 * t55";
  "t442 = t225 / t430 * t10 * t293 * t54";
  "t444 = 0.1134370464579530260e0 * t436 + 0.452548339959390416e-1 * t442 + 0.531736155271654809e-2";
  "t448 = math.atan(0.1187931309903801598e2 * t442 + 0.236958012866641818e1)";
  "t453 = t306 * t430";
  "t456 = t310 * t15 * t95";
  "t459 = math.log(t444)";
  "t467 = 0.2e1 * t442";
  "t468 = math.log(t467)";
  "t477 = t453 * t68";
  "t479 = t477 * t334 * t95";
  "t484 = t338 * t431 * t10 * t93 * t132";
  "t497 = math.log(0.1604242095763840328e1 * t436 + 0.64e0 * t442 + 0.751988482389300153e-1)";
  "t507 = math.log(t467 + 0.482257181994472723e0)";
  "t515 = math.log(0.20000000000000000000e1 * t436 + 0.821419393556370918e0 * t442 + 0.105323524476768857e0)";
  "t524 = math.atan(0.160041105570901272e0 / (0.156250e1 * t442 + 0.32086695060795739e0))";
  "t534 = math.sqrt(0.10000000000000000000e1 * t436 + 0.505765839233979018e0 * t442 + 0.720485831127149779e-1)";
  "t537 = math.atanh((0.268418671319107341e0 + 0.942121195869983724e0 * t442) / t534)";
  "t545 = math.log(0.3125000000000000000e1 * t436 + 0.1246694626254477116e1 * t442 + 0.146484374999999999e0)";
  "t556 = 0.1e1 / t444 * (-t448 * (0.7385217579407656e0 * t436 + 0.2946275542389858e0 * t442 + 0.3461820740347690e-1) * t453 * t456 / 0.6e1 - t459 * (0.38307570128017124e0 * t436 + 0.15282509383508946e0 * t442 + 0.1795667349750801e-1) * t453 * t456 / 0.6e1 + t468 * (0.7661514025603416e0 * t436 + 0.3056501876701794e0 * t442 + 0.3591334699501599e-1) * t453 * t456 / 0.6e1 - 0.102377731051917540e0 * t442 + 0.101508307543839117e1 + 0.14975624337724556833e0 * t479 + 0.18501446123012983250e-1 * t484) - 0.22079848381299059167e2 * t479 - 0.27001225709730947333e1 * t484 - 0.37610742193750634333e1 * t468 * t306 * t430 * t456 + 0.18805371096875317167e1 * t497 * t306 * t430 * t456 + 0.19489173774580151667e2 * t448 * t306 * t430 * t456 + 0.49373337174483548167e1 * t507 * t306 * t430 * t456 - 0.41150663529849592833e-1 * t477 * t334 * t95 * t515 + 0.18635258017632964667e2 * t524 * t306 * t430 * t456 - 0.22140749178833072667e1 * t537 * t306 * t430 * t456 - 0.24275161951943278333e1 * t545 * t306 * t430 * t456 - 0.35540878740919256083e1 * t534 * t338 * t431 * t142 * t92 * t132";
  "res = t1 * ((0.1e1 - t6) * t208 / 0.4e1 + t213 * t414 / 0.8e1 + t418 * t556 / 0.8e1)"]%b.

(* gen_repo/impl/prebuilt/unpol/lda_c_pk09.py *)
Definition unpol_lda_c_pk09 : list bstr := [
  "t1 = 4 ** (0.1e1 / 0.3e1)";
  "t2 = t1 ** 2";
  "t3 = 3 ** (0.1e1 / 0.3e1)";
  "t4 = 0.1e1 / math.pi";
  "t5 = t4 ** (0.1e1 / 0.3e1)";
  "t7 = r0 ** (0.1e1 / 0.3e1)";
  "t8 = 0.1e1 / t7";
  "t10 = t3 * t5 * t2 * t8";
  "t11 = t10 ** (0.1e1 / 0.3e1)";
  "t12 = t2 * t11";
  "t14 = math.exp(-0.20932594558070200000e0 * t12)";
  "t15 = 4 ** (0.1e1 / 0.4e1)";
  "t16 = t15 ** 2";
  "t19 = t10 ** (0.1e1 / 0.4e1)";
  "t23 = math.exp(-0.25916439866088000000e0 * t12)";
  "t27 = 0.538074483500437e0 - 0.55652374774629750000e0 * t14 * t16 * t15 * t19 + 0.65492746474079450000e0 * t23 * t2 * t11";
  "t28 = t27 ** 2";
  "t29 = t3 ** 2";
  "t31 = math.pi ** 2";
  "t32 = t31 ** (0.1e1 / 0.3e1)";
  "t33 = t32 ** 2";
  "t34 = t7 ** 2";
  "t36 = 0.1e1 <= p_a_zeta_threshold";
  "t37 = p_a_zeta_threshold ** (0.1e1 / 0.3e1)";
  "t38 = lax_cond(t36, t37, 1)";
  "t39 = t38 ** 2";
  "t40 = t33 * t34 * t39";
  "t41 = t28 * t29 * t40";
  "t45 = t32 * t7 * t38";
  "t46 = t27 * t3 * t45";
  "t48 = 0.283592616144882565e-1 * t41 + 0.226274169979695208e-1 * t46 + 0.531736155271654809e-2";
  "t52 = math.atan(0.593965654951900799e1 * t46 + 0.236958012866641818e1)";
  "t57 = 0.1e1 / t27";
  "t59 = 0.1e1 / t32";
  "t61 = 0.1e1 / t38";
  "t62 = t8 * t61";
  "t63 = t29 * t59 * t62";
  "t66 = math.log(t48)";
  "t74 = math.log(t46)";
  "t83 = t57 * t29";
  "t84 = t59 * t8";
  "t85 = t84 * t61";
  "t86 = t83 * t85";
  "t88 = 0.1e1 / t28";
  "t90 = 0.1e1 / t33";
  "t91 = 0.1e1 / t34";
  "t93 = 0.1e1 / t39";
  "t94 = t90 * t91 * t93";
  "t95 = t88 * t3 * t94";
  "t109 = math.log(0.401060523940960082e0 * t41 + 0.32e0 * t46 + 0.751988482389300153e-1)";
  "t119 = math.log(t46 + 0.482257181994472723e0)";
  "t128 = math.log(0.50000000000000000000e0 * t41 + 0.410709696778185459e0 * t46 + 0.105323524476768857e0)";
  "t136 = math.atan(0.160041105570901272e0 / (0.78125e0 * t46 + 0.32086695060795739e0))";
  "t146 = math.sqrt(0.25000000000000000000e0 * t41 + 0.252882919616989509e0 * t46 + 0.720485831127149779e-1)";
  "t149 = math.atanh((0.268418671319107341e0 + 0.471060597934991862e0 * t46) / t146)";
  "t157 = math.log(0.781250000000000000e0 * t41 + 0.623347313127238558e0 * t46 + 0.146484374999999999e0)";
  "t166 = p_a_zeta_threshold ** 2";
  "t167 = lax_cond(t36, t166, 1)";
  "t169 = math.exp(-0.42734869200542000000e0 * t12)";
  "t171 = t11 ** 2";
  "t175 = math.exp(-0.11739612251904750000e0 * t12)";
  "t179 = 0.41081146652128e0 + 0.14983581422587875000e0 * t169 * t1 * t171 + 0.19280802104870250000e-1 * t175 * t2 * t11";
  "t180 = t179 ** 2";
  "t182 = t5 ** 2";
  "t185 = t29 * t182 * t1 * t91";
  "t188 = t4 / r0";
  "t195 = t3 * t5 * t4 * t2 / t7 / r0";
  "t213 = p_a_zeta_threshold ** (0.71948800000000005309e0 * (-0.113693369789727190e3 + 0.60012553781967786000e1 * t10 + 0.12335328239599176875e2 * t185 - 0.17868177912628447650e2 * t188 + 0.17701513906783214888e0 * t195 + 0.54944839533438375000e-4 * t29 * t182 * t4 * t1 / t34 / r0) / (-0.10974263493216910e3 + 0.40665782361060603750e1 * t10 + 0.13600858284347709150e2 * t185 - 0.18865507428140992500e2 * t188 + 0.18750000000000000000e0 * t195))";
  "t214 = lax_cond(t36, t213, 1)";
  "t215 = t214 ** 2";
  "t219 = t180 / t215 * t29 * t40";
  "t224 = t179 / t214 * t3 * t45";
  "t226 = 0.283592616144882565e-1 * t219 + 0.226274169979695208e-1 * t224 + 0.531736155271654809e-2";
  "t230 = math.atan(0.593965654951900799e1 * t224 + 0.236958012866641818e1)";
  "t235 = 0.1e1 / t179";
  "t236 = t235 * t214";
  "t240 = math.log(t226)";
  "t248 = math.log(t224)";
  "t257 = t236 * t29";
  "t258 = t257 * t85";
  "t260 = 0.1e1 / t180";
  "t263 = t260 * t215 * t3 * t94";
  "t276 = math.log(0.401060523940960082e0 * t219 + 0.32e0 * t224 + 0.751988482389300153e-1)";
  "t286 = math.log(t224 + 0.482257181994472723e0)";
  "t294 = math.log(0.50000000000000000000e0 * t219 + 0.410709696778185459e0 * t224 + 0.105323524476768857e0)";
  "t303 = math.atan(0.160041105570901272e0 / (0.78125e0 * t224 + 0.32086695060795739e0))";
  "t313 = math.sqrt(0.25000000000000000000e0 * t219 + 0.252882919616989509e0 * t224 + 0.720485831127149779e-1)";
  "t316 = math.atanh((0.268418671319107341e0 + 0.471060597934991862e0 * t224) / t313)";
  "t324 = math.log(0.781250000000000000e0 * t219 + 0.623347313127238558e0 * t224 + 0.146484374999999999e0)";
  "t336 = 0.1e1 / t226 * (-t230 * (0.1846304394851914e0 * t219 + 0.1473137771194929e0 * t224 + 0.3461820740347690e-1) * t236 * t63 / 0.3e1 - t240 * (0.9576892532004281e-1 * t219 + 0.7641254691754473e-1 * t224 + 0.1795667349750801e-1) * t236 * t63 / 0.3e1 + t248 * (0.1915378506400854e0 * t219 + 0.1528250938350897e0 * t224 + 0.3591334699501599e-1) * t236 * t63 / 0.3e1 - 0.51188865525958770e-1 * t224 + 0.101508307543839117e1 + 0.29951248675449113667e0 * t258 + 0.74005784492051933000e-1 * t263) - 0.44159696762598118333e2 * t258 - 0.10800490283892378933e2 * t263 - 0.75221484387501268667e1 * t248 * t235 * t214 * t63 + 0.37610742193750634333e1 * t276 * t235 * t214 * t63 + 0.38978347549160303333e2 * t230 * t235 * t214 * t63 + 0.98746674348967096333e1 * t286 * t235 * t214 * t63 - 0.82301327059699185667e-1 * t257 * t84 * t61 * t294 + 0.37270516035265929333e2 * t303 * t235 * t214 * t63 - 0.44281498357666145333e1 * t316 * t235 * t214 * t63 - 0.48550323903886556667e1 * t324 * t235 * t214 * t63 - 0.14216351496367702433e2 * t313 * t260 * t215 * t3 * t90 * t91 * t93";
  "t339 = 0.1e1 / t48 * (-t52 * (0.1846304394851914e0 * t41 + 0.1473137771194929e0 * t46 + 0.3461820740347690e-1) * t57 * t63 / 0.3e1 - t66 * (0.9576892532004281e-1 * t41 + 0.7641254691754473e-1 * t46 + 0.1795667349750801e-1) * t57 * t63 / 0.3e1 + t74 * (0.1915378506400854e0 * t41 + 0.1528250938350897e0 * t46 + 0.3591334699501599e-1) * t57 * t63 / 0.3e1 - 0.51188865525958770e-1 * t46 + 0.101508307543839117e1 + 0.29951248675449113667e0 * t86 + 0.74005784492051933000e-1 * t95) / 0.4e1 - 0.11039924190649529583e2 * t86 - 0.27001225709730947332e1 * t95 - 0.18805371096875317167e1 * t74 * t57 * t29 * t85 + 0.94026855484376585832e0 * t109 * t57 * t29 * t85 + 0.97445868872900758332e1 * t52 * t57 * t29 * t85 + 0.24686668587241774083e1 * t119 * t57 * t29 * t85 - 0.20575331764924796417e-1 * t83 * t59 * t62 * t128 + 0.93176290088164823332e1 * t136 * t57 * t29 * t85 - 0.11070374589416536333e1 * t149 * t57 * t29 * t85 - 0.12137580975971639167e1 * t157 * t57 * t29 * t85 - 0.35540878740919256082e1 * t146 * t88 * t3 * t94 + t167 * t336 / 0.4e1";
  "res = r0 * t339"]%b.

(* gen_repo/impl/prebuilt/pol/lda_c_pmgb06.py *)
Definition pol_lda_c_pmgb06 : list bstr := [
  "t1 = r0 - r1";
  "t2 = r0 + r1";
  "t3 = 0.1e1 / t2";
  "t4 = t1 * t3";
  "t5 = 0.1e1 + t4";
  "t6 = t5 <= p_a_zeta_threshold";
  "t7 = p_a_zeta_threshold ** (0.1e1 / 0.3e1)";
  "t8 = t7 ** 2";
  "t9 = t5 ** (0.1e1 / 0.3e1)";
  "t10 = t9 ** 2";
  "t11 = lax_cond(t6, t8, t10)";
  "t12 = 0.1e1 - t4";
  "t13 = t12 <= p_a_zeta_threshold";
  "t14 = t12 ** (0.1e1 / 0.3e1)";
  "t15 = t14 ** 2";
  "t16 = lax_cond(t13, t8, t15)";
  "t18 = t11 / 0.2e1 + t16 / 0.2e1";
  "t19 = t18 ** 2";
  "t20 = t19 * t18";
  "t21 = math.log(0.2e1)";
  "t22 = t21 - 0.1e1";
  "t25 = math.pi ** 2";
  "t26 = 0.1e1 / t25";
  "t27 = 3 ** (0.1e1 / 0.3e1)";
  "t28 = 0.1e1 / math.pi";
  "t29 = t28 ** (0.1e1 / 0.3e1)";
  "t30 = t27 * t29";
  "t31 = 4 ** (0.1e1 / 0.3e1)";
  "t32 = t31 ** 2";
  "t33 = t2 ** (0.1e1 / 0.3e1)";
  "t34 = 0.1e1 / t33";
  "t35 = t32 * t34";
  "t36 = t30 * t35";
  "t37 = math.sqrt(t36)";
  "t41 = 0.29230250000000000000e1 * p_a_cam_omega * t37 / t18";
  "t43 = 9 ** (0.1e1 / 0.3e1)";
  "t44 = t43 ** 2";
  "t52 = p_a_cam_omega ** 2";
  "t55 = t29 * t32";
  "t56 = 0.1e1 / t19";
  "t61 = t52 * p_a_cam_omega";
  "t76 = math.log((0.1e1 + t41 + (0.344851e1 - math.pi * t31 * t44 * t29 / t22 / 0.12e2) * t52 * t27 * t55 * t34 * t56 / 0.4e1 + 0.48968000000000000000e0 * t61 * t37 * t36 / t20) / (0.1e1 + t41 + 0.86212750000000000000e0 * t52 * t27 * t29 * t35 * t56))";
  "t79 = math.sqrt(math.pi)";
  "t83 = t1 ** 2";
  "t84 = t2 ** 2";
  "t85 = 0.1e1 / t84";
  "t86 = t83 * t85";
  "t87 = 0.1e1 - t86";
  "t101 = t27 ** 2";
  "t102 = t29 ** 2";
  "t103 = t101 * t102";
  "t104 = t33 ** 2";
  "t105 = 0.1e1 / t104";
  "t106 = t31 * t105";
  "t107 = t103 * t106";
  "t109 = t28 * t3";
  "t111 = t29 * t28";
  "t112 = t27 * t111";
  "t115 = t32 / t33 / t2";
  "t120 = math.exp(-0.18810000000000000000e0 * t36)";
  "t121 = (0.1e1 - (0.2e1 / 0.45e2 * t31 * t44 * t29 * (t25 + 0.6e1 * t21 - 0.3e1) * t28 - 0.7524e0) * t27 * t55 * t34 / 0.4e1 + 0.20482500000000000000e-1 * t107 - 0.95775000000000000000e-2 * t109 + 0.34856250000000000000e-3 * t112 * t115) * t120";
  "t122 = math.sqrt(0.2e1)";
  "t127 = t101 * t102 * t26";
  "t128 = t127 * t31";
  "t130 = 0.1e1 / t104 / t2";
  "t131 = p_a_zeta_threshold ** 2";
  "t132 = t5 ** 2";
  "t133 = lax_cond(t6, t131, t132)";
  "t136 = 0.1e1 / t111 * t27";
  "t139 = (0.1e1 / t5) ** (0.1e1 / 0.3e1)";
  "t140 = t139 ** 2";
  "t143 = t30 * t32";
  "t144 = 2 ** (0.1e1 / 0.3e1)";
  "t145 = t34 * t144";
  "t147 = t143 * t145 * t139";
  "t151 = t103 * t31";
  "t152 = t144 ** 2";
  "t153 = t105 * t152";
  "t162 = t133 * t44 * t136 * t104 / t140 * (0.1e1 - 0.56675000000000000000e-2 * t147) / (0.1e1 + 0.10797500000000000000e0 * t147 + 0.10000000000000000000e-1 * t151 * t153 * t140) / 0.30e2";
  "t163 = t12 ** 2";
  "t164 = lax_cond(t13, t131, t163)";
  "t168 = (0.1e1 / t12) ** (0.1e1 / 0.3e1)";
  "t169 = t168 ** 2";
  "t173 = t143 * t145 * t168";
  "t185 = t164 * t44 * t136 * t104 / t169 * (0.1e1 - 0.56675000000000000000e-2 * t173) / (0.1e1 + 0.10797500000000000000e0 * t173 + 0.10000000000000000000e-1 * t151 * t153 * t169) / 0.30e2";
  "t191 = math.exp(-0.77500000000000000000e-1 * t36)";
  "t198 = t122 * t79";
  "t205 = t121 / 0.2e1 - 0.1e1 / 0.2e1 + t86 / 0.2e1";
  "t214 = math.exp(-0.13675000000000000000e0 * t36)";
  "t222 = t8 * t131";
  "t224 = lax_cond(t6, t222, t10 * t132)";
  "t226 = lax_cond(t13, t222, t15 * t163)";
  "t242 = t36 ** 0.15e1";
  "t249 = math.log(0.1e1 + 0.16081979498692535067e2 / (0.37978500000000000000e1 * t37 + 0.89690000000000000000e0 * t36 + 0.20477500000000000000e0 * t242 + 0.12323500000000000000e0 * t107))";
  "t251 = 0.621814e-1 * (0.1e1 + 0.53425000000000000000e-1 * t36) * t249";
  "t252 = t83 ** 2";
  "t253 = t84 ** 2";
  "t256 = t7 * p_a_zeta_threshold";
  "t258 = lax_cond(t6, t256, t9 * t5)";
  "t260 = lax_cond(t13, t256, t14 * t12)";
  "t265 = (t258 + t260 - 0.2e1) / (0.2e1 * t144 - 0.2e1)";
  "t276 = math.log(0.1e1 + 0.32163958997385070134e2 / (0.70594500000000000000e1 * t37 + 0.15494250000000000000e1 * t36 + 0.42077500000000000000e0 * t242 + 0.15629250000000000000e0 * t107))";
  "t289 = math.log(0.1e1 + 0.29608749977793437516e2 / (0.51785000000000000000e1 * t37 + 0.90577500000000000000e0 * t36 + 0.11003250000000000000e0 * t242 + 0.12417750000000000000e0 * t107))";
  "t290 = (0.1e1 + 0.27812500000000000000e-1 * t36) * t289";
  "t297 = -t251 + t252 / t253 * t265 * (-0.3109070e-1 * (0.1e1 + 0.51370000000000000000e-1 * t36) * t276 + t251 - 0.19751673498613801407e-1 * t290) + 0.19751673498613801407e-1 * t265 * t290";
  "t302 = t52 ** 2";
  "t326 = t302 ** 2";
  "t335 = (0.1e1 + 0.15403623315025000000e0 * t103 * t106 * t52) ** 2";
  "t336 = t335 ** 2";
  "res = (0.2e1 * t20 * t22 * t26 * t76 + (-0.17543244109220059985e0 / t79 / math.pi * t3 * t87 * t121 * t122 - 0.30400821447970174150e-2 * t128 * t130 * (t162 + t185 + 0.4e1 / 0.3e1 * t87 * (-0.12375000000000000000e1 * t36 + t107 / 0.4e1) * t191 * math.pi * t2) * t198) * t61 + (-0.26314866163830089978e0 * t109 * t87 * t205 - 0.38001026809962717688e-2 * t128 * t130 * (t162 + t185 + t87 * (-0.97000000000000000000e-1 * t36 + 0.16900000000000000000e0 * t107) * t214 * t27 / t102 * t32 * t104 / 0.3e1 - (t224 / 0.2e1 + t226 / 0.2e1) * t44 * t136 * t104 / 0.15e2) * math.pi + 0.42708890021612718669e0 * t112 * t115 * t297) * t302 - 0.67557380995489275890e-2 * t127 * t31 * t130 * t87 * t121 * t198 * t302 * p_a_cam_omega + (-0.10133607149323391384e-1 * t128 * t130 * t87 * t205 * math.pi + 0.52629732327660179956e0 * t26 * t85 * t297) * t302 * t52 + 0.20267214298646782767e-1 * t128 / t104 / t84 * t297 * t326) / t336"]%b.

(* gen_repo/impl/prebuilt/unpol/lda_c_pmgb06.py *)
Definition unpol_lda_c_pmgb06 : list bstr := [
  "t1 = 0.1e1 <= p_a_zeta_threshold";
  "t2 = p_a_zeta_threshold ** (0.1e1 / 0.3e1)";
  "t3 = t2 ** 2";
  "t4 = lax_cond(t1, t3, 1)";
  "t5 = t4 ** 2";
  "t6 = t5 * t4";
  "t7 = math.log(0.2e1)";
  "t8 = t7 - 0.1e1";
  "t11 = math.pi ** 2";
  "t12 = 0.1e1 / t11";
  "t13 = 3 ** (0.1e1 / 0.3e1)";
  "t14 = 0.1e1 / math.pi";
  "t15 = t14 ** (0.1e1 / 0.3e1)";
  "t16 = t13 * t15";
  "t17 = 4 ** (0.1e1 / 0.3e1)";
  "t18 = t17 ** 2";
  "t19 = r0 ** (0.1e1 / 0.3e1)";
  "t20 = 0.1e1 / t19";
  "t21 = t18 * t20";
  "t22 = t16 * t21";
  "t23 = math.sqrt(t22)";
  "t27 = 0.29230250000000000000e1 * p_a_cam_omega * t23 / t4";
  "t29 = 9 ** (0.1e1 / 0.3e1)";
  "t30 = t29 ** 2";
  "t38 = p_a_cam_omega ** 2";
  "t41 = t15 * t18";
  "t42 = 0.1e1 / t5";
  "t47 = t38 * p_a_cam_omega";
  "t62 = math.log((0.1e1 + t27 + (0.344851e1 - math.pi * t17 * t30 * t15 / t8 / 0.12e2) * t38 * t13 * t41 * t20 * t42 / 0.4e1 + 0.48968000000000000000e0 * t47 * t23 * t22 / t6) / (0.1e1 + t27 + 0.86212750000000000000e0 * t38 * t13 * t15 * t21 * t42))";
  "t65 = math.sqrt(math.pi)";
  "t68 = 0.1e1 / r0";
  "t82 = t13 ** 2";
  "t83 = t15 ** 2";
  "t84 = t82 * t83";
  "t85 = t19 ** 2";
  "t87 = t17 / t85";
  "t88 = t84 * t87";
  "t90 = t14 * t68";
  "t92 = t15 * t14";
  "t93 = t13 * t92";
  "t96 = t18 / t19 / r0";
  "t101 = math.exp(-0.18810000000000000000e0 * t22)";
  "t102 = (0.1e1 - (0.2e1 / 0.45e2 * t17 * t30 * t15 * (t11 + 0.6e1 * t7 - 0.3e1) * t14 - 0.7524e0) * t13 * t41 * t20 / 0.4e1 + 0.20482500000000000000e-1 * t88 - 0.95775000000000000000e-2 * t90 + 0.34856250000000000000e-3 * t93 * t96) * t101";
  "t103 = math.sqrt(0.2e1)";
  "t108 = t82 * t83 * t12";
  "t109 = t108 * t17";
  "t111 = 0.1e1 / t85 / r0";
  "t112 = p_a_zeta_threshold ** 2";
  "t113 = lax_cond(t1, t112, 1)";
  "t115 = 0.1e1 / t92";
  "t118 = 2 ** (0.1e1 / 0.3e1)";
  "t120 = t16 * t21 * t118";
  "t124 = t118 ** 2";
  "t133 = t113 * t30 * t115 * t13 * t85 * (0.1e1 - 0.56675000000000000000e-2 * t120) / (0.1e1 + 0.10797500000000000000e0 * t120 + 0.10000000000000000000e-1 * t84 * t87 * t124) / 0.15e2";
  "t138 = math.exp(-0.77500000000000000000e-1 * t22)";
  "t145 = t103 * t65";
  "t152 = t102 / 0.2e1 - 0.1e1 / 0.2e1";
  "t159 = math.exp(-0.13675000000000000000e0 * t22)";
  "t168 = lax_cond(t1, t3 * t112, 1)";
  "t183 = t22 ** 0.15e1";
  "t190 = math.log(0.1e1 + 0.16081979498692535067e2 / (0.37978500000000000000e1 * t23 + 0.89690000000000000000e0 * t22 + 0.20477500000000000000e0 * t183 + 0.12323500000000000000e0 * t88))";
  "t194 = lax_cond(t1, t2 * p_a_zeta_threshold, 1)";
  "t211 = math.log(0.1e1 + 0.29608749977793437516e2 / (0.51785000000000000000e1 * t23 + 0.90577500000000000000e0 * t22 + 0.11003250000000000000e0 * t183 + 0.12417750000000000000e0 * t88))";
  "t215 = -0.621814e-1 * (0.1e1 + 0.53425000000000000000e-1 * t22) * t190 + 0.19751673498613801407e-1 * (0.2e1 * t194 - 0.2e1) / (0.2e1 * t118 - 0.2e1) * (0.1e1 + 0.27812500000000000000e-1 * t22) * t211";
  "t220 = t38 ** 2";
  "t233 = r0 ** 2";
  "t244 = t220 ** 2";
  "t253 = (0.1e1 + 0.15403623315025000000e0 * t84 * t87 * t38) ** 2";
  "t254 = t253 ** 2";
  "res = (0.2e1 * t6 * t8 * t12 * t62 + (-0.17543244109220059985e0 / t65 / math.pi * t68 * t102 * t103 - 0.30400821447970174150e-2 * t109 * t111 * (t133 + 0.4e1 / 0.3e1 * (-0.12375000000000000000e1 * t22 + t88 / 0.4e1) * t138 * math.pi * r0) * t145) * t47 + (-0.26314866163830089978e0 * t90 * t152 - 0.38001026809962717688e-2 * t109 * t111 * (t133 + (-0.97000000000000000000e-1 * t22 + 0.16900000000000000000e0 * t88) * t159 * t13 / t83 * t18 * t85 / 0.3e1 - t168 * t30 * t115 * t13 * t85 / 0.15e2) * math.pi + 0.42708890021612718669e0 * t93 * t96 * t215) * t220 - 0.67557380995489275890e-2 * t108 * t17 * t111 * t102 * t145 * t220 * p_a_cam_omega + (-0.10133607149323391384e-1 * t109 * t111 * t152 * math.pi + 0.52629732327660179956e0 * t12 / t233 * t215) * t220 * t38 + 0.20267214298646782767e-1 * t109 / t85 / t233 * t215 * t244) / t254"]%b.

(* gen_repo/impl/prebuilt/pol/lda_c_pw.py *)
Definition pol_lda_c_pw : list bstr := [
  "t1 = params_a_a[0]";
  "t3 = 3 ** (0.1e1 / 0.3e1)";
  "t6 = (0.1e1 / math.pi) ** (0.1e1 / 0.3e1)";
  "t7 = 4 ** (0.1e1 / 0.3e1)";
  "t8 = t7 ** 2";
  "t10 = r0 + r1";
  "t11 = t10 ** (0.1e1 / 0.3e1)";
  "t12 = 0.1e1 / t11";
  "t13 = t6 * t8 * t12";
  "t22 = t3 * t6 * t8 * t12";
  "t23 = math.sqrt(t22)";
  "t31 = t22 ** 0.15e1";
  "t35 = t22 / 0.4e1";
  "t38 = t35 ** (params_a_pp[0] + 0.1e1)";
  "t45 = math.log(0.1e1 + 0.1e1 / t1 / (params_a_beta1[0] * t23 / 0.2e1 + params_a_beta2[0] * t3 * t13 / 0.4e1 + 0.12500000000000000000e0 * params_a_beta3[0] * t31 + params_a_beta4[0] * t38) / 0.2e1)";
  "t46 = t1 * (0.1e1 + params_a_alpha1[0] * t3 * t13 / 0.4e1) * t45";
  "t48 = r0 - r1";
  "t49 = t48 ** 2";
  "t50 = t49 ** 2";
  "t51 = t10 ** 2";
  "t52 = t51 ** 2";
  "t56 = t48 / t10";
  "t57 = 0.1e1 + t56";
  "t59 = p_a_zeta_threshold ** (0.1e1 / 0.3e1)";
  "t60 = t59 * p_a_zeta_threshold";
  "t61 = t57 ** (0.1e1 / 0.3e1)";
  "t63 = lax_cond(t57 <= p_a_zeta_threshold, t60, t61 * t57)";
  "t64 = 0.1e1 - t56";
  "t66 = t64 ** (0.1e1 / 0.3e1)";
  "t68 = lax_cond(t64 <= p_a_zeta_threshold, t60, t66 * t64)";
  "t70 = 2 ** (0.1e1 / 0.3e1)";
  "t74 = (t63 + t68 - 0.2e1) / (0.2e1 * t70 - 0.2e1)";
  "t75 = params_a_a[1]";
  "t96 = t35 ** (params_a_pp[1] + 0.1e1)";
  "t103 = math.log(0.1e1 + 0.1e1 / t75 / (params_a_beta1[1] * t23 / 0.2e1 + params_a_beta2[1] * t3 * t13 / 0.4e1 + 0.12500000000000000000e0 * params_a_beta3[1] * t31 + params_a_beta4[1] * t96) / 0.2e1)";
  "t105 = params_a_a[2]";
  "t110 = 0.1e1 + params_a_alpha1[2] * t3 * t13 / 0.4e1";
  "t126 = t35 ** (params_a_pp[2] + 0.1e1)";
  "t133 = math.log(0.1e1 + 0.1e1 / t105 / (params_a_beta1[2] * t23 / 0.2e1 + params_a_beta2[2] * t3 * t13 / 0.4e1 + 0.12500000000000000000e0 * params_a_beta3[2] * t31 + params_a_beta4[2] * t126) / 0.2e1)";
  "t134 = 0.1e1 / params_a_fz20";
  "res = -0.2e1 * t46 + t50 / t52 * t74 * (-0.2e1 * t75 * (0.1e1 + params_a_alpha1[1] * t3 * t13 / 0.4e1) * t103 + 0.2e1 * t46 - 0.2e1 * t105 * t110 * t133 * t134) + 0.2e1 * t74 * t105 * t110 * t133 * t134"]%b.

(* gen_repo/impl/prebuilt/unpol/lda_c_pw.py *)
Definition unpol_lda_c_pw : list bstr := [
  "t1 = params_a_a[0]";
  "t3 = 3 ** (0.1e1 / 0.3e1)";
  "t6 = (0.1e1 / math.pi) ** (0.1e1 / 0.3e1)";
  "t7 = 4 ** (0.1e1 / 0.3e1)";
  "t8 = t7 ** 2";
  "t10 = r0 ** (0.1e1 / 0.3e1)";
  "t11 = 0.1e1 / t10";
  "t12 = t6 * t8 * t11";
  "t21 = t3 * t6 * t8 * t11";
  "t22 = math.sqrt(t21)";
  "t30 = t21 ** 0.15e1";
  "t34 = t21 / 0.4e1";
  "t37 = t34 ** (params_a_pp[0] + 0.1e1)";
  "t44 = math.log(0.1e1 + 0.1e1 / t1 / (params_a_beta1[0] * t22 / 0.2e1 + params_a_beta2[0] * t3 * t12 / 0.4e1 + 0.12500000000000000000e0 * params_a_beta3[0] * t30 + params_a_beta4[0] * t37) / 0.2e1)";
  "t47 = p_a_zeta_threshold ** (0.1e1 / 0.3e1)";
  "t49 = lax_cond(0.1e1 <= p_a_zeta_threshold, t47 * p_a_zeta_threshold, 1)";
  "t52 = 2 ** (0.1e1 / 0.3e1)";
  "t57 = params_a_a[2]";
  "t78 = t34 ** (params_a_pp[2] + 0.1e1)";
  "t85 = math.log(0.1e1 + 0.1e1 / t57 / (params_a_beta1[2] * t22 / 0.2e1 + params_a_beta2[2] * t3 * t12 / 0.4e1 + 0.12500000000000000000e0 * params_a_beta3[2] * t30 + params_a_beta4[2] * t78) / 0.2e1)";
  "res = -0.2e1 * t1 * (0.1e1 + params_a_alpha1[0] * t3 * t12 / 0.4e1) * t44 + 0.2e1 * (0.2e1 * t49 - 0.2e1) / (0.2e1 * t52 - 0.2e1) * t57 * (0.1e1 + params_a_alpha1[2] * t3 * t12 / 0.4e1) * t85 / params_a_fz20"]%b.

(* gen_repo/impl/prebuilt/pol/lda_c_pz.py *)
Definition pol_lda_c_pz : list bstr := [
  "t1 = 3 ** (0.1e1 / 0.3e1)";
  "t3 = (0.1e1 / math.pi) ** (0.1e1 / 0.3e1)";
  "t5 = 4 ** (0.1e1 / 0.3e1)";
  "t6 = t5 ** 2";
  "t7 = r0 + r1";
  "t8 = t7 ** (0.1e1 / 0.3e1)";
  "t9 = 0.1e1 / t8";
  "t10 = t6 * t9";
  "t11 = t1 * t3 * t10";
  "t12 = t11 / 0.4e1";
  "t13 = 0.1e1 <= t12";
  "t16 = math.sqrt(t11)";
  "t22 = t3 * t6 * t9";
  "t29 = math.log(t12)";
  "t35 = t10 * t29";
  "t43 = lax_cond(t13, params_a_gamma[0] / (0.1e1 + params_a_beta1[0] * t16 / 0.2e1 + params_a_beta2[0] * t1 * t22 / 0.4e1), params_a_a[0] * t29 + params_a_b[0] + params_a_c[0] * t1 * t3 * t35 / 0.4e1 + params_a_d[0] * t1 * t22 / 0.4e1)";
  "t68 = lax_cond(t13, params_a_gamma[1] / (0.1e1 + params_a_beta1[1] * t16 / 0.2e1 + params_a_beta2[1] * t1 * t22 / 0.4e1), params_a_a[1] * t29 + params_a_b[1] + params_a_c[1] * t1 * t3 * t35 / 0.4e1 + params_a_d[1] * t1 * t22 / 0.4e1)";
  "t72 = (r0 - r1) / t7";
  "t73 = 0.1e1 + t72";
  "t75 = p_a_zeta_threshold ** (0.1e1 / 0.3e1)";
  "t76 = t75 * p_a_zeta_threshold";
  "t77 = t73 ** (0.1e1 / 0.3e1)";
  "t79 = lax_cond(t73 <= p_a_zeta_threshold, t76, t77 * t73)";
  "t80 = 0.1e1 - t72";
  "t82 = t80 ** (0.1e1 / 0.3e1)";
  "t84 = lax_cond(t80 <= p_a_zeta_threshold, t76, t82 * t80)";
  "t87 = 2 ** (0.1e1 / 0.3e1)";
  "res = t43 + (t68 - t43) * (t79 + t84 - 0.2e1) / (0.2e1 * t87 - 0.2e1)"]%b.

(* gen_repo/impl/prebuilt/unpol/lda_c_pz.py *)
Definition unpol_lda_c_pz : list bstr := [
  "t1 = 3 ** (0.1e1 / 0.3e1)";
  "t3 = (0.1e1 / math.pi) ** (0.1e1 / 0.3e1)";
  "t5 = 4 ** (0.1e1 / 0.3e1)";
  "t6 = t5 ** 2";
  "t7 = r0 ** (0.1e1 / 0.3e1)";
  "t8 = 0.1e1 / t7";
  "t9 = t6 * t8";
  "t10 = t1 * t3 * t9";
  "t11 = t10 / 0.4e1";
  "t12 = 0.1e1 <= t11";
  "t15 = math.sqrt(t10)";
  "t21 = t3 * t6 * t8";
  "t28 = math.log(t11)";
  "t34 = t9 * t28";
  "t42 = lax_cond(t12, params_a_gamma[0] / (0.1e1 + params_a_beta1[0] * t15 / 0.2e1 + params_a_beta2[0] * t1 * t21 / 0.4e1), params_a_a[0] * t28 + params_a_b[0] + params_a_c[0] * t1 * t3 * t34 / 0.4e1 + params_a_d[0] * t1 * t21 / 0.4e1)";
  "t67 = lax_cond(t12, params_a_gamma[1] / (0.1e1 + params_a_beta1[1] * t15 / 0.2e1 + params_a_beta2[1] * t1 * t21 / 0.4e1), params_a_a[1] * t28 + params_a_b[1] + params_a_c[1] * t1 * t3 * t34 / 0.4e1 + params_a_d[1] * t1 * t21 / 0.4e1)";
  "t70 = p_a_zeta_threshold ** (0.1e1 / 0.3e1)";
  "t72 = lax_cond(0.1e1 <= p_a_zeta_threshold, t70 * p_a_zeta_threshold, 1)";
  "t76 = 2 ** (0.1e1 / 0.3e1)";
  "res = t42 + (t67 - t42) * (0.2e1 * t72 - 0.2e1) / (0.2e1 * t76 - 0.2e1)"]%b.

(* gen_repo/impl/prebuilt/pol/lda_c_rc04.py *)
Definition pol_lda_c_rc04 : list bstr := [
  "t2 = r0 + r1";
  "t4 = (r0 - r1) / t2";
  "t5 = 0.1e1 + t4";
  "t7 = p_a_zeta_threshold ** (0.1e1 / 0.3e1)";
  "t8 = t7 ** 2";
  "t9 = t5 ** (0.1e1 / 0.3e1)";
  "t10 = t9 ** 2";
  "t11 = lax_cond(t5 <= p_a_zeta_threshold, t8, t10)";
  "t12 = 0.1e1 - t4";
  "t14 = t12 ** (0.1e1 / 0.3e1)";
  "t15 = t14 ** 2";
  "t16 = lax_cond(t12 <= p_a_zeta_threshold, t8, t15)";
  "t18 = t11 / 0.2e1 + t16 / 0.2e1";
  "t19 = t18 ** 2";
  "t21 = 3 ** (0.1e1 / 0.3e1)";
  "t23 = (0.1e1 / math.pi) ** (0.1e1 / 0.3e1)";
  "t25 = 4 ** (0.1e1 / 0.3e1)";
  "t26 = t25 ** 2";
  "t27 = t2 ** (0.1e1 / 0.3e1)";
  "t33 = math.atan(0.4888270e1 + 0.79425925000000000000e0 * t21 * t23 * t26 / t27)";
  "t37 = t21 ** 2";
  "res = t19 * t18 * (-0.655868e0 * t33 + 0.897889e0) * t37 / t23 * t25 * t27 / 0.3e1"]%b.

(* gen_repo/impl/prebuilt/unpol/lda_c_rc04.py *)
Definition unpol_lda_c_rc04 : list bstr := [
  "t2 = p_a_zeta_threshold ** (0.1e1 / 0.3e1)";
  "t3 = t2 ** 2";
  "t4 = lax_cond(0.1e1 <= p_a_zeta_threshold, t3, 1)";
  "t5 = t4 ** 2";
  "t7 = 3 ** (0.1e1 / 0.3e1)";
  "t9 = (0.1e1 / math.pi) ** (0.1e1 / 0.3e1)";
  "t11 = 4 ** (0.1e1 / 0.3e1)";
  "t12 = t11 ** 2";
  "t13 = r0 ** (0.1e1 / 0.3e1)";
  "t19 = math.atan(0.4888270e1 + 0.79425925000000000000e0 * t7 * t9 * t12 / t13)";
  "t23 = t7 ** 2";
  "res = t5 * t4 * (-0.655868e0 * t19 + 0.897889e0) * t23 / t9 * t11 * t13 / 0.3e1"]%b.

(* gen_repo/impl/prebuilt/pol/lda_c_rpa.py *)
Definition pol_lda_c_rpa : list bstr := [
  "t1 = 3 ** (0.1e1 / 0.3e1)";
  "t3 = (0.1e1 / math.pi) ** (0.1e1 / 0.3e1)";
  "t4 = t1 * t3";
  "t5 = 4 ** (0.1e1 / 0.3e1)";
  "t6 = t5 ** 2";
  "t8 = (r0 + r1) ** (0.1e1 / 0.3e1)";
  "t10 = t6 / t8";
  "t11 = t4 * t10";
  "t13 = math.log(t11 / 0.4e1)";
  "res = 0.311e-1 * t13 - 0.48e-1 + 0.22500000000000000000e-2 * t4 * t10 * t13 - 0.42500000000000000000e-2 * t11"]%b.

(* gen_repo/impl/prebuilt/unpol/lda_c_rpa.py *)
Definition unpol_lda_c_rpa : list bstr := [
  "t1 = 3 ** (0.1e1 / 0.3e1)";
  "t3 = (0.1e1 / math.pi) ** (0.1e1 / 0.3e1)";
  "t4 = t1 * t3";
  "t5 = 4 ** (0.1e1 / 0.3e1)";
  "t6 = t5 ** 2";
  "t7 = r0 ** (0.1e1 / 0.3e1)";
  "t9 = t6 / t7";
  "t10 = t4 * t9";
  "t12 = math.log(t10 / 0.4e1)";
  "res = 0.311e-1 * t12 - 0.48e-1 + 0.22500000000000000000e-2 * t4 * t9 * t12 - 0.42500000000000000000e-2 * t10"]%b.

(* gen_repo/impl/prebuilt/pol/lda_c_vwn.py *)
Definition pol_lda_c_vwn : list bstr := [
  "t1 = 3 ** (0.1e1 / 0.3e1)";
  "t3 = (0.1e1 / math.pi) ** (0.1e1 / 0.3e1)";
  "t4 = t1 * t3";
  "t5 = 4 ** (0.1e1 / 0.3e1)";
  "t6 = t5 ** 2";
  "t7 = r0 + r1";
  "t8 = t7 ** (0.1e1 / 0.3e1)";
  "t10 = t6 / t8";
  "t11 = t4 * t10";
  "t12 = t11 / 0.4e1";
  "t13 = math.sqrt(t11)";
  "t16 = 0.1e1 / (t12 + 0.18637200000000000000e1 * t13 + 0.129352e2)";
  "t20 = math.log(t4 * t10 * t16 / 0.4e1)";
  "t21 = 0.310907e-1 * t20";
  "t25 = math.atan(0.61519908197590802322e1 / (t13 + 0.372744e1))";
  "t26 = 0.38783294878113014393e-1 * t25";
  "t27 = t13 / 0.2e1";
  "t29 = (t27 + 0.10498e0) ** 2";
  "t31 = math.log(t29 * t16)";
  "t32 = 0.96902277115443742139e-3 * t31";
  "t33 = math.pi ** 2";
  "t37 = 0.1e1 / (t12 + 0.56553500000000000000e0 * t13 + 0.130045e2)";
  "t41 = math.log(t4 * t10 * t37 / 0.4e1)";
  "t45 = math.atan(0.71231089178181179908e1 / (t13 + 0.113107e1))";
  "t48 = (t27 + 0.47584e-2) ** 2";
  "t50 = math.log(t48 * t37)";
  "t54 = r0 - r1";
  "t56 = t54 / t7";
  "t57 = 0.1e1 + t56";
  "t59 = p_a_zeta_threshold ** (0.1e1 / 0.3e1)";
  "t60 = t59 * p_a_zeta_threshold";
  "t61 = t57 ** (0.1e1 / 0.3e1)";
  "t63 = lax_cond(t57 <= p_a_zeta_threshold, t60, t61 * t57)";
  "t64 = 0.1e1 - t56";
  "t66 = t64 ** (0.1e1 / 0.3e1)";
  "t68 = lax_cond(t64 <= p_a_zeta_threshold, t60, t66 * t64)";
  "t69 = t63 + t68 - 0.2e1";
  "t71 = 2 ** (0.1e1 / 0.3e1)";
  "t72 = t71 - 0.1e1";
  "t74 = 0.1e1 / t72 / 0.2e1";
  "t75 = t54 ** 2";
  "t76 = t75 ** 2";
  "t77 = t7 ** 2";
  "t78 = t77 ** 2";
  "t79 = 0.1e1 / t78";
  "t89 = 0.1e1 / (t12 + 0.35302100000000000000e1 * t13 + 0.180578e2)";
  "t93 = math.log(t4 * t10 * t89 / 0.4e1)";
  "t98 = math.atan(0.47309269095601128300e1 / (t13 + 0.706042e1))";
  "t101 = (t27 + 0.32500e0) ** 2";
  "t103 = math.log(t101 * t89)";
  "res = t21 + t26 + t32 - 0.3e1 / 0.8e1 / t33 * (t41 + 0.31770800474394146400e0 * t45 + 0.41403379428206274608e-3 * t50) * t69 * t74 * (-t76 * t79 + 0.1e1) * t72 + (0.1554535e-1 * t93 + 0.52491393169780936218e-1 * t98 + 0.22478670955426118383e-2 * t103 - t21 - t26 - t32) * t69 * t74 * t76 * t79"]%b.

(* gen_repo/impl/prebuilt/unpol/lda_c_vwn.py *)
Definition unpol_lda_c_vwn : list bstr := [
  "t1 = 3 ** (0.1e1 / 0.3e1)";
  "t3 = (0.1e1 / math.pi) ** (0.1e1 / 0.3e1)";
  "t4 = t1 * t3";
  "t5 = 4 ** (0.1e1 / 0.3e1)";
  "t6 = t5 ** 2";
  "t7 = r0 ** (0.1e1 / 0.3e1)";
  "t9 = t6 / t7";
  "t10 = t4 * t9";
  "t11 = t10 / 0.4e1";
  "t12 = math.sqrt(t10)";
  "t15 = 0.1e1 / (t11 + 0.18637200000000000000e1 * t12 + 0.129352e2)";
  "t19 = math.log(t4 * t9 * t15 / 0.4e1)";
  "t24 = math.atan(0.61519908197590802322e1 / (t12 + 0.372744e1))";
  "t26 = t12 / 0.2e1";
  "t28 = (t26 + 0.10498e0) ** 2";
  "t30 = math.log(t28 * t15)";
  "t32 = math.pi ** 2";
  "t36 = 0.1e1 / (t11 + 0.56553500000000000000e0 * t12 + 0.130045e2)";
  "t40 = math.log(t4 * t9 * t36 / 0.4e1)";
  "t44 = math.atan(0.71231089178181179908e1 / (t12 + 0.113107e1))";
  "t47 = (t26 + 0.47584e-2) ** 2";
  "t49 = math.log(t47 * t36)";
  "t54 = p_a_zeta_threshold ** (0.1e1 / 0.3e1)";
  "t56 = lax_cond(0.1e1 <= p_a_zeta_threshold, t54 * p_a_zeta_threshold, 1)";
  "t59 = 2 ** (0.1e1 / 0.3e1)";
  "t60 = t59 - 0.1e1";
  "res = 0.310907e-1 * t19 + 0.38783294878113014393e-1 * t24 + 0.96902277115443742139e-3 * t30 - 0.1e1 / t32 * (t40 + 0.31770800474394146400e0 * t44 + 0.41403379428206274608e-3 * t49) * (0.9e1 * t56 - 0.9e1) / 0.24e2"]%b.

(* gen_repo/impl/prebuilt/pol/lda_c_vwn_1.py *)
Definition pol_lda_c_vwn_1 : list bstr := [
  "t1 = 3 ** (0.1e1 / 0.3e1)";
  "t3 = (0.1e1 / math.pi) ** (0.1e1 / 0.3e1)";
  "t4 = t1 * t3";
  "t5 = 4 ** (0.1e1 / 0.3e1)";
  "t6 = t5 ** 2";
  "t7 = r0 + r1";
  "t8 = t7 ** (0.1e1 / 0.3e1)";
  "t10 = t6 / t8";
  "t11 = t4 * t10";
  "t12 = t11 / 0.4e1";
  "t13 = math.sqrt(t11)";
  "t16 = 0.1e1 / (t12 + 0.18637200000000000000e1 * t13 + 0.129352e2)";
  "t20 = math.log(t4 * t10 * t16 / 0.4e1)";
  "t25 = math.atan(0.61519908197590802322e1 / (t13 + 0.372744e1))";
  "t27 = t13 / 0.2e1";
  "t29 = (t27 + 0.10498e0) ** 2";
  "t31 = math.log(t29 * t16)";
  "t36 = (r0 - r1) / t7";
  "t37 = 0.1e1 + t36";
  "t39 = p_a_zeta_threshold ** (0.1e1 / 0.3e1)";
  "t40 = t39 * p_a_zeta_threshold";
  "t41 = t37 ** (0.1e1 / 0.3e1)";
  "t43 = lax_cond(t37 <= p_a_zeta_threshold, t40, t41 * t37)";
  "t44 = 0.1e1 - t36";
  "t46 = t44 ** (0.1e1 / 0.3e1)";
  "t48 = lax_cond(t44 <= p_a_zeta_threshold, t40, t46 * t44)";
  "t49 = t43 + t48 - 0.2e1";
  "t50 = 2 ** (0.1e1 / 0.3e1)";
  "t53 = 0.1e1 / (0.2e1 * t50 - 0.2e1)";
  "t59 = 0.1e1 / (t12 + 0.35302100000000000000e1 * t13 + 0.180578e2)";
  "t63 = math.log(t4 * t10 * t59 / 0.4e1)";
  "t68 = math.atan(0.47309269095601128300e1 / (t13 + 0.706042e1))";
  "t71 = (t27 + 0.32500e0) ** 2";
  "t73 = math.log(t71 * t59)";
  "res = (0.310907e-1 * t20 + 0.38783294878113014393e-1 * t25 + 0.96902277115443742139e-3 * t31) * (-t49 * t53 + 0.1e1) + (0.1554535e-1 * t63 + 0.52491393169780936218e-1 * t68 + 0.22478670955426118383e-2 * t73) * t49 * t53"]%b.

(* gen_repo/impl/prebuilt/unpol/lda_c_vwn_1.py *)
Definition unpol_lda_c_vwn_1 : list bstr := [
  "t1 = 3 ** (0.1e1 / 0.3e1)";
  "t3 = (0.1e1 / math.pi) ** (0.1e1 / 0.3e1)";
  "t4 = t1 * t3";
  "t5 = 4 ** (0.1e1 / 0.3e1)";
  "t6 = t5 ** 2";
  "t7 = r0 ** (0.1e1 / 0.3e1)";
  "t9 = t6 / t7";
  "t10 = t4 * t9";
  "t11 = t10 / 0.4e1";
  "t12 = math.sqrt(t10)";
  "t15 = 0.1e1 / (t11 + 0.18637200000000000000e1 * t12 + 0.129352e2)";
  "t19 = math.log(t4 * t9 * t15 / 0.4e1)";
  "t24 = math.atan(0.61519908197590802322e1 / (t12 + 0.372744e1))";
  "t26 = t12 / 0.2e1";
  "t28 = (t26 + 0.10498e0) ** 2";
  "t30 = math.log(t28 * t15)";
  "t34 = p_a_zeta_threshold ** (0.1e1 / 0.3e1)";
  "t36 = lax_cond(0.1e1 <= p_a_zeta_threshold, t34 * p_a_zeta_threshold, 1)";
  "t38 = 0.2e1 * t36 - 0.2e1";
  "t39 = 2 ** (0.1e1 / 0.3e1)";
  "t42 = 0.1e1 / (0.2e1 * t39 - 0.2e1)";
  "t48 = 0.1e1 / (t11 + 0.35302100000000000000e1 * t12 + 0.180578e2)";
  "t52 = math.log(t4 * t9 * t48 / 0.4e1)";
  "t57 = math.atan(0.47309269095601128300e1 / (t12 + 0.706042e1))";
  "t60 = (t26 + 0.32500e0) ** 2";
  "t62 = math.log(t60 * t48)";
  "res = (0.310907e-1 * t19 + 0.38783294878113014393e-1 * t24 + 0.96902277115443742139e-3 * t30) * (-t38 * t42 + 0.1e1) + (0.1554535e-1 * t52 + 0.52491393169780936218e-1 * t57 + 0.22478670955426118383e-2 * t62) * t38 * t42"]%b.

(* gen_repo/impl/prebuilt/pol/lda_c_vwn_2.py *)
Definition pol_lda_c_vwn_2 : list bstr := [
  "t1 = 3 ** (0.1e1 / 0.3e1)";
  "t3 = (0.1e1 / math.pi) ** (0.1e1 / 0.3e1)";
  "t4 = t1 * t3";
  "t5 = 4 ** (0.1e1 / 0.3e1)";
  "t6 = t5 ** 2";
  "t7 = r0 + r1";
  "t8 = t7 ** (0.1e1 / 0.3e1)";
  "t10 = t6 / t8";
  "t11 = t4 * t10";
  "t12 = t11 / 0.4e1";
  "t13 = math.sqrt(t11)";
  "t16 = 0.1e1 / (t12 + 0.18637200000000000000e1 * t13 + 0.129352e2)";
  "t20 = math.log(t4 * t10 * t16 / 0.4e1)";
  "t21 = 0.310907e-1 * t20";
  "t25 = math.atan(0.61519908197590802322e1 / (t13 + 0.372744e1))";
  "t26 = 0.38783294878113014393e-1 * t25";
  "t27 = t13 / 0.2e1";
  "t29 = (t27 + 0.10498e0) ** 2";
  "t31 = math.log(t29 * t16)";
  "t32 = 0.96902277115443742139e-3 * t31";
  "t33 = math.pi ** 2";
  "t37 = 0.1e1 / (t12 + 0.53417500000000000000e0 * t13 + 0.114813e2)";
  "t41 = math.log(t4 * t10 * t37 / 0.4e1)";
  "t45 = math.atan(0.66920720466459414830e1 / (t13 + 0.106835e1))";
  "t48 = (t27 + 0.228344e0) ** 2";
  "t50 = math.log(t48 * t37)";
  "t54 = r0 - r1";
  "t56 = t54 / t7";
  "t57 = 0.1e1 + t56";
  "t59 = p_a_zeta_threshold ** (0.1e1 / 0.3e1)";
  "t60 = t59 * p_a_zeta_threshold";
  "t61 = t57 ** (0.1e1 / 0.3e1)";
  "t63 = lax_cond(t57 <= p_a_zeta_threshold, t60, t61 * t57)";
  "t64 = 0.1e1 - t56";
  "t66 = t64 ** (0.1e1 / 0.3e1)";
  "t68 = lax_cond(t64 <= p_a_zeta_threshold, t60, t66 * t64)";
  "t69 = t63 + t68 - 0.2e1";
  "t71 = 2 ** (0.1e1 / 0.3e1)";
  "t72 = t71 - 0.1e1";
  "t74 = 0.1e1 / t72 / 0.2e1";
  "t75 = t54 ** 2";
  "t76 = t75 ** 2";
  "t77 = t7 ** 2";
  "t78 = t77 ** 2";
  "t82 = t74 * (0.1e1 - t76 / t78)";
  "t89 = 0.1e1 / (t12 + 0.10061550000000000000e2 * t13 + 0.101578e3)";
  "t93 = math.log(t4 * t10 * t89 / 0.4e1)";
  "t98 = math.atan(0.11716852777089929792e1 / (t13 + 0.201231e2))";
  "t101 = (t27 + 0.743294e0) ** 2";
  "t103 = math.log(t101 * t89)";
  "t107 = 0.1e1 / (t12 + 0.65360000000000000000e1 * t13 + 0.427198e2)";
  "t111 = math.log(t4 * t10 * t107 / 0.4e1)";
  "t116 = math.atan(0.44899888641287296627e-1 / (t13 + 0.130720e2))";
  "t119 = (t27 + 0.409286e0) ** 2";
  "t121 = math.log(t119 * t107)";
  "t128 = 0.1e1 / (t12 + 0.35302100000000000000e1 * t13 + 0.180578e2)";
  "t132 = math.log(t4 * t10 * t128 / 0.4e1)";
  "t137 = math.atan(0.47309269095601128300e1 / (t13 + 0.706042e1))";
  "t140 = (t27 + 0.32500e0) ** 2";
  "t142 = math.log(t140 * t128)";
  "res = t21 + t26 + t32 - 0.3e1 / 0.8e1 / t33 * (t41 + 0.32323836906055067299e0 * t45 + 0.21608710360898267022e-1 * t50) * t69 * t82 * t72 - (0.1554535e-1 * t93 + 0.61881802979060631482e0 * t98 + 0.26673100072733151594e-2 * t103 - 0.310907e-1 * t111 - 0.20521972937837502661e2 * t116 - 0.44313737677495382697e-2 * t121) * t69 * t82 + (0.1554535e-1 * t132 + 0.52491393169780936218e-1 * t137 + 0.22478670955426118383e-2 * t142 - t21 - t26 - t32) * t69 * t74"]%b.

(* gen_repo/impl/prebuilt/unpol/lda_c_vwn_2.py *)
Definition unpol_lda_c_vwn_2 : list bstr := [
  "t1 = 3 ** (0.1e1 / 0.3e1)";
  "t3 = (0.1e1 / math.pi) ** (0.1e1 / 0.3e1)";
  "t4 = t1 * t3";
  "t5 = 4 ** (0.1e1 / 0.3e1)";
  "t6 = t5 ** 2";
  "t7 = r0 ** (0.1e1 / 0.3e1)";
  "t9 = t6 / t7";
  "t10 = t4 * t9";
  "t11 = t10 / 0.4e1";
  "t12 = math.sqrt(t10)";
  "t15 = 0.1e1 / (t11 + 0.18637200000000000000e1 * t12 + 0.129352e2)";
  "t19 = math.log(t4 * t9 * t15 / 0.4e1)";
  "t20 = 0.310907e-1 * t19";
  "t24 = math.atan(0.61519908197590802322e1 / (t12 + 0.372744e1))";
  "t25 = 0.38783294878113014393e-1 * t24";
  "t26 = t12 / 0.2e1";
  "t28 = (t26 + 0.10498e0) ** 2";
  "t30 = math.log(t28 * t15)";
  "t31 = 0.96902277115443742139e-3 * t30";
  "t32 = math.pi ** 2";
  "t36 = 0.1e1 / (t11 + 0.53417500000000000000e0 * t12 + 0.114813e2)";
  "t40 = math.log(t4 * t9 * t36 / 0.4e1)";
  "t44 = math.atan(0.66920720466459414830e1 / (t12 + 0.106835e1))";
  "t47 = (t26 + 0.228344e0) ** 2";
  "t49 = math.log(t47 * t36)";
  "t54 = p_a_zeta_threshold ** (0.1e1 / 0.3e1)";
  "t56 = lax_cond(0.1e1 <= p_a_zeta_threshold, t54 * p_a_zeta_threshold, 1)";
  "t58 = 0.2e1 * t56 - 0.2e1";
  "t59 = 2 ** (0.1e1 / 0.3e1)";
  "t60 = t59 - 0.1e1";
  "t62 = 0.1e1 / t60 / 0.2e1";
  "t70 = 0.1e1 / (t11 + 0.10061550000000000000e2 * t12 + 0.101578e3)";
  "t74 = math.log(t4 * t9 * t70 / 0.4e1)";
  "t79 = math.atan(0.11716852777089929792e1 / (t12 + 0.201231e2))";
  "t82 = (t26 + 0.743294e0) ** 2";
  "t84 = math.log(t82 * t70)";
  "t88 = 0.1e1 / (t11 + 0.65360000000000000000e1 * t12 + 0.427198e2)";
  "t92 = math.log(t4 * t9 * t88 / 0.4e1)";
  "t97 = math.atan(0.44899888641287296627e-1 / (t12 + 0.130720e2))";
  "t100 = (t26 + 0.409286e0) ** 2";
  "t102 = math.log(t100 * t88)";
  "t109 = 0.1e1 / (t11 + 0.35302100000000000000e1 * t12 + 0.180578e2)";
  "t113 = math.log(t4 * t9 * t109 / 0.4e1)";
  "t118 = math.atan(0.47309269095601128300e1 / (t12 + 0.706042e1))";
  "t121 = (t26 + 0.32500e0) ** 2";
  "t123 = math.log(t121 * t109)";
  "res = t20 + t25 + t31 - 0.3e1 / 0.8e1 / t32 * (t40 + 0.32323836906055067299e0 * t44 + 0.21608710360898267022e-1 * t49) * t58 * t62 * t60 - (0.1554535e-1 * t74 + 0.61881802979060631482e0 * t79 + 0.26673100072733151594e-2 * t84 - 0.310907e-1 * t92 - 0.20521972937837502661e2 * t97 - 0.44313737677495382697e-2 * t102) * t58 * t62 + (0.1554535e-1 * t113 + 0.52491393169780936218e-1 * t118 + 0.22478670955426118383e-2 * t123 - t20 - t25 - t31) * t58 * t62"]%b.

(* gen_repo/impl/prebuilt/pol/lda_c_vwn_3.py *)
Definition pol_lda_c_vwn_3 : list bstr := [
  "t1 = 3 ** (0.1e1 / 0.3e1)";
  "t3 = (0.1e1 / math.pi) ** (0.1e1 / 0.3e1)";
  "t4 = t1 * t3";
  "t5 = 4 ** (0.1e1 / 0.3e1)";
  "t6 = t5 ** 2";
  "t7 = r0 + r1";
  "t8 = t7 ** (0.1e1 / 0.3e1)";
  "t10 = t6 / t8";
  "t11 = t4 * t10";
  "t12 = t11 / 0.4e1";
  "t13 = math.sqrt(t11)";
  "t16 = 0.1e1 / (t12 + 0.18637200000000000000e1 * t13 + 0.129352e2)";
  "t20 = math.log(t4 * t10 * t16 / 0.4e1)";
  "t21 = 0.310907e-1 * t20";
  "t25 = math.atan(0.61519908197590802322e1 / (t13 + 0.372744e1))";
  "t26 = 0.38783294878113014393e-1 * t25";
  "t27 = t13 / 0.2e1";
  "t29 = (t27 + 0.10498e0) ** 2";
  "t31 = math.log(t29 * t16)";
  "t32 = 0.96902277115443742139e-3 * t31";
  "t35 = 0.1e1 / (t12 + 0.35302100000000000000e1 * t13 + 0.180578e2)";
  "t39 = math.log(t4 * t10 * t35 / 0.4e1)";
  "t44 = math.atan(0.47309269095601128300e1 / (t13 + 0.706042e1))";
  "t47 = (t27 + 0.32500e0) ** 2";
  "t49 = math.log(t47 * t35)";
  "t51 = 0.1554535e-1 * t39 + 0.52491393169780936218e-1 * t44 + 0.22478670955426118383e-2 * t49 - t21 - t26 - t32";
  "t54 = 0.1e1 / (t12 + 0.10061550000000000000e2 * t13 + 0.101578e3)";
  "t58 = math.log(t4 * t10 * t54 / 0.4e1)";
  "t63 = math.atan(0.11716852777089929792e1 / (t13 + 0.201231e2))";
  "t66 = (t27 + 0.743294e0) ** 2";
  "t68 = math.log(t66 * t54)";
  "t72 = 0.1e1 / (t12 + 0.65360000000000000000e1 * t13 + 0.427198e2)";
  "t76 = math.log(t4 * t10 * t72 / 0.4e1)";
  "t81 = math.atan(0.44899888641287296627e-1 / (t13 + 0.130720e2))";
  "t84 = (t27 + 0.409286e0) ** 2";
  "t86 = math.log(t84 * t72)";
  "t91 = math.pi ** 2";
  "t95 = 0.1e1 / (t12 + 0.53417500000000000000e0 * t13 + 0.114813e2)";
  "t99 = math.log(t4 * t10 * t95 / 0.4e1)";
  "t103 = math.atan(0.66920720466459414830e1 / (t13 + 0.106835e1))";
  "t106 = (t27 + 0.228344e0) ** 2";
  "t108 = math.log(t106 * t95)";
  "t113 = r0 - r1";
  "t115 = t113 / t7";
  "t116 = 0.1e1 + t115";
  "t118 = p_a_zeta_threshold ** (0.1e1 / 0.3e1)";
  "t119 = t118 * p_a_zeta_threshold";
  "t120 = t116 ** (0.1e1 / 0.3e1)";
  "t122 = lax_cond(t116 <= p_a_zeta_threshold, t119, t120 * t116)";
  "t123 = 0.1e1 - t115";
  "t125 = t123 ** (0.1e1 / 0.3e1)";
  "t127 = lax_cond(t123 <= p_a_zeta_threshold, t119, t125 * t123)";
  "t128 = t122 + t127 - 0.2e1";
  "t129 = 2 ** (0.1e1 / 0.3e1)";
  "t130 = t129 - 0.1e1";
  "t132 = 0.1e1 / t130 / 0.2e1";
  "t134 = t113 ** 2";
  "t135 = t134 ** 2";
  "t136 = t7 ** 2";
  "t137 = t136 ** 2";
  "t138 = 0.1e1 / t137";
  "res = t21 + t26 + t32 - 0.3e1 / 0.8e1 * t51 / (0.1554535e-1 * t58 + 0.61881802979060631482e0 * t63 + 0.26673100072733151594e-2 * t68 - 0.310907e-1 * t76 - 0.20521972937837502661e2 * t81 - 0.44313737677495382697e-2 * t86) / t91 * (t99 + 0.32323836906055067299e0 * t103 + 0.21608710360898267022e-1 * t108) * t128 * t132 * (-t135 * t138 + 0.1e1) * t130 + t51 * t128 * t132 * t135 * t138"]%b.

(* gen_repo/impl/prebuilt/unpol/lda_c_vwn_3.py *)
Definition unpol_lda_c_vwn_3 : list bstr := [
  "t1 = 3 ** (0.1e1 / 0.3e1)";
  "t3 = (0.1e1 / math.pi) ** (0.1e1 / 0.3e1)";
  "t4 = t1 * t3";
  "t5 = 4 ** (0.1e1 / 0.3e1)";
  "t6 = t5 ** 2";
  "t7 = r0 ** (0.1e1 / 0.3e1)";
  "t9 = t6 / t7";
  "t10 = t4 * t9";
  "t11 = t10 / 0.4e1";
  "t12 = math.sqrt(t10)";
  "t15 = 0.1e1 / (t11 + 0.18637200000000000000e1 * t12 + 0.129352e2)";
  "t19 = math.log(t4 * t9 * t15 / 0.4e1)";
  "t20 = 0.310907e-1 * t19";
  "t24 = math.atan(0.61519908197590802322e1 / (t12 + 0.372744e1))";
  "t25 = 0.38783294878113014393e-1 * t24";
  "t26 = t12 / 0.2e1";
  "t28 = (t26 + 0.10498e0) ** 2";
  "t30 = math.log(t28 * t15)";
  "t31 = 0.96902277115443742139e-3 * t30";
  "t34 = 0.1e1 / (t11 + 0.35302100000000000000e1 * t12 + 0.180578e2)";
  "t38 = math.log(t4 * t9 * t34 / 0.4e1)";
  "t43 = math.atan(0.47309269095601128300e1 / (t12 + 0.706042e1))";
  "t46 = (t26 + 0.32500e0) ** 2";
  "t48 = math.log(t46 * t34)";
  "t53 = 0.1e1 / (t11 + 0.10061550000000000000e2 * t12 + 0.101578e3)";
  "t57 = math.log(t4 * t9 * t53 / 0.4e1)";
  "t62 = math.atan(0.11716852777089929792e1 / (t12 + 0.201231e2))";
  "t65 = (t26 + 0.743294e0) ** 2";
  "t67 = math.log(t65 * t53)";
  "t71 = 0.1e1 / (t11 + 0.65360000000000000000e1 * t12 + 0.427198e2)";
  "t75 = math.log(t4 * t9 * t71 / 0.4e1)";
  "t80 = math.atan(0.44899888641287296627e-1 / (t12 + 0.130720e2))";
  "t83 = (t26 + 0.409286e0) ** 2";
  "t85 = math.log(t83 * t71)";
  "t90 = math.pi ** 2";
  "t95 = 0.1e1 / (t11 + 0.53417500000000000000e0 * t12 + 0.114813e2)";
  "t99 = math.log(t4 * t9 * t95 / 0.4e1)";
  "t103 = math.atan(0.66920720466459414830e1 / (t12 + 0.106835e1))";
  "t106 = (t26 + 0.228344e0) ** 2";
  "t108 = math.log(t106 * t95)";
  "t112 = p_a_zeta_threshold ** (0.1e1 / 0.3e1)";
  "t114 = lax_cond(0.1e1 <= p_a_zeta_threshold, t112 * p_a_zeta_threshold, 1)";
  "t118 = 2 ** (0.1e1 / 0.3e1)";
  "t119 = t118 - 0.1e1";
  "res = t20 + t25 + t31 - 0.3e1 / 0.16e2 * (0.1554535e-1 * t38 + 0.52491393169780936218e-1 * t43 + 0.22478670955426118383e-2 * t48 - t20 - t25 - t31) / (0.1554535e-1 * t57 + 0.61881802979060631482e0 * t62 + 0.26673100072733151594e-2 * t67 - 0.310907e-1 * t75 - 0.20521972937837502661e2 * t80 - 0.44313737677495382697e-2 * t85) / t90 * (t99 + 0.32323836906055067299e0 * t103 + 0.21608710360898267022e-1 * t108) * (0.2e1 * t114 - 0.2e1)"]%b.

(* gen_repo/impl/prebuilt/pol/lda_c_vwn_4.py *)
Definition pol_lda_c_vwn_4 : list bstr := [
  "t1 = 3 ** (0.1e1 / 0.3e1)";
  "t3 = (0.1e1 / math.pi) ** (0.1e1 / 0.3e1)";
  "t4 = t1 * t3";
  "t5 = 4 ** (0.1e1 / 0.3e1)";
  "t6 = t5 ** 2";
  "t7 = r0 + r1";
  "t8 = t7 ** (0.1e1 / 0.3e1)";
  "t10 = t6 / t8";
  "t11 = t4 * t10";
  "t12 = t11 / 0.4e1";
  "t13 = math.sqrt(t11)";
  "t16 = 0.1e1 / (t12 + 0.18637200000000000000e1 * t13 + 0.129352e2)";
  "t20 = math.log(t4 * t10 * t16 / 0.4e1)";
  "t21 = 0.310907e-1 * t20";
  "t25 = math.atan(0.61519908197590802322e1 / (t13 + 0.372744e1))";
  "t26 = 0.38783294878113014393e-1 * t25";
  "t27 = t13 / 0.2e1";
  "t29 = (t27 + 0.10498e0) ** 2";
  "t31 = math.log(t29 * t16)";
  "t32 = 0.96902277115443742139e-3 * t31";
  "t33 = math.pi ** 2";
  "t37 = 0.1e1 / (t12 + 0.53417500000000000000e0 * t13 + 0.114813e2)";
  "t41 = math.log(t4 * t10 * t37 / 0.4e1)";
  "t45 = math.atan(0.66920720466459414830e1 / (t13 + 0.106835e1))";
  "t48 = (t27 + 0.228344e0) ** 2";
  "t50 = math.log(t48 * t37)";
  "t54 = r0 - r1";
  "t56 = t54 / t7";
  "t57 = 0.1e1 + t56";
  "t59 = p_a_zeta_threshold ** (0.1e1 / 0.3e1)";
  "t60 = t59 * p_a_zeta_threshold";
  "t61 = t57 ** (0.1e1 / 0.3e1)";
  "t63 = lax_cond(t57 <= p_a_zeta_threshold, t60, t61 * t57)";
  "t64 = 0.1e1 - t56";
  "t66 = t64 ** (0.1e1 / 0.3e1)";
  "t68 = lax_cond(t64 <= p_a_zeta_threshold, t60, t66 * t64)";
  "t69 = t63 + t68 - 0.2e1";
  "t71 = 2 ** (0.1e1 / 0.3e1)";
  "t72 = t71 - 0.1e1";
  "t74 = 0.1e1 / t72 / 0.2e1";
  "t75 = t54 ** 2";
  "t76 = t75 ** 2";
  "t77 = t7 ** 2";
  "t78 = t77 ** 2";
  "t79 = 0.1e1 / t78";
  "t89 = 0.1e1 / (t12 + 0.35302100000000000000e1 * t13 + 0.180578e2)";
  "t93 = math.log(t4 * t10 * t89 / 0.4e1)";
  "t98 = math.atan(0.47309269095601128300e1 / (t13 + 0.706042e1))";
  "t101 = (t27 + 0.32500e0) ** 2";
  "t103 = math.log(t101 * t89)";
  "res = t21 + t26 + t32 - 0.3e1 / 0.8e1 / t33 * (t41 + 0.32323836906055067299e0 * t45 + 0.21608710360898267022e-1 * t50) * t69 * t74 * (-t76 * t79 + 0.1e1) * t72 + (0.1554535e-1 * t93 + 0.52491393169780936218e-1 * t98 + 0.22478670955426118383e-2 * t103 - t21 - t26 - t32) * t69 * t74 * t76 * t79"]%b.

(* gen_repo/impl/prebuilt/unpol/lda_c_vwn_4.py *)
Definition unpol_lda_c_vwn_4 : list bstr := [
  "t1 = 3 ** (0.1e1 / 0.3e1)";
  "t3 = (0.1e1 / math.pi) ** (0.1e1 / 0.3e1)";
  "t4 = t1 * t3";
  "t5 = 4 ** (0.1e1 / 0.3e1)";
  "t6 = t5 ** 2";
  "t7 = r0 ** (0.1e1 / 0.3e1)";
  "t9 = t6 / t7";
  "t10 = t4 * t9";
  "t11 = t10 / 0.4e1";
  "t12 = math.sqrt(t10)";
  "t15 = 0.1e1 / (t11 + 0.18637200000000000000e1 * t12 + 0.129352e2)";
  "t19 = math.log(t4 * t9 * t15 / 0.4e1)";
  "t24 = math.atan(0.61519908197590802322e1 / (t12 + 0.372744e1))";
  "t26 = t12 / 0.2e1";
  "t28 = (t26 + 0.10498e0) ** 2";
  "t30 = math.log(t28 * t15)";
  "t32 = math.pi ** 2";
  "t36 = 0.1e1 / (t11 + 0.53417500000000000000e0 * t12 + 0.114813e2)";
  "t40 = math.log(t4 * t9 * t36 / 0.4e1)";
  "t44 = math.atan(0.66920720466459414830e1 / (t12 + 0.106835e1))";
  "t47 = (t26 + 0.228344e0) ** 2";
  "t49 = math.log(t47 * t36)";
  "t54 = p_a_zeta_threshold ** (0.1e1 / 0.3e1)";
  "t56 = lax_cond(0.1e1 <= p_a_zeta_threshold, t54 * p_a_zeta_threshold, 1)";
  "t59 = 2 ** (0.1e1 / 0.3e1)";
  "t60 = t59 - 0.1e1";
  "res = 0.310907e-1 * t19 + 0.38783294878113014393e-1 * t24 + 0.96902277115443742139e-3 * t30 - 0.1e1 / t32 * (t40 + 0.32323836906055067299e0 * t44 + 0.21608710360898267022e-1 * t49) * (0.9e1 * t56 - 0.9e1) / 0.24e2"]%b.

(* gen_repo/impl/prebuilt/pol/lda_c_vwn_rpa.py *)
Definition pol_lda_c_vwn_rpa : list bstr := [
  "t1 = 3 ** (0.1e1 / 0.3e1)";
  "t3 = (0.1e1 / math.pi) ** (0.1e1 / 0.3e1)";
  "t4 = t1 * t3";
  "t5 = 4 ** (0.1e1 / 0.3e1)";
  "t6 = t5 ** 2";
  "t7 = r0 + r1";
  "t8 = t7 ** (0.1e1 / 0.3e1)";
  "t10 = t6 / t8";
  "t11 = t4 * t10";
  "t12 = t11 / 0.4e1";
  "t13 = math.sqrt(t11)";
  "t16 = 0.1e1 / (t12 + 0.65360000000000000000e1 * t13 + 0.427198e2)";
  "t20 = math.log(t4 * t10 * t16 / 0.4e1)";
  "t25 = math.atan(0.44899888641287296627e-1 / (t13 + 0.130720e2))";
  "t27 = t13 / 0.2e1";
  "t29 = (t27 + 0.409286e0) ** 2";
  "t31 = math.log(t29 * t16)";
  "t36 = (r0 - r1) / t7";
  "t37 = 0.1e1 + t36";
  "t39 = p_a_zeta_threshold ** (0.1e1 / 0.3e1)";
  "t40 = t39 * p_a_zeta_threshold";
  "t41 = t37 ** (0.1e1 / 0.3e1)";
  "t43 = lax_cond(t37 <= p_a_zeta_threshold, t40, t41 * t37)";
  "t44 = 0.1e1 - t36";
  "t46 = t44 ** (0.1e1 / 0.3e1)";
  "t48 = lax_cond(t44 <= p_a_zeta_threshold, t40, t46 * t44)";
  "t49 = t43 + t48 - 0.2e1";
  "t50 = 2 ** (0.1e1 / 0.3e1)";
  "t53 = 0.1e1 / (0.2e1 * t50 - 0.2e1)";
  "t59 = 0.1e1 / (t12 + 0.10061550000000000000e2 * t13 + 0.101578e3)";
  "t63 = math.log(t4 * t10 * t59 / 0.4e1)";
  "t68 = math.atan(0.11716852777089929792e1 / (t13 + 0.201231e2))";
  "t71 = (t27 + 0.743294e0) ** 2";
  "t73 = math.log(t71 * t59)";
  "res = (0.310907e-1 * t20 + 0.20521972937837502661e2 * t25 + 0.44313737677495382697e-2 * t31) * (-t49 * t53 + 0.1e1) + (0.1554535e-1 * t63 + 0.61881802979060631482e0 * t68 + 0.26673100072733151594e-2 * t73) * t49 * t53"]%b.

(* gen_repo/impl/prebuilt/unpol/lda_c_vwn_rpa.py *)
Definition unpol_lda_c_vwn_rpa : list bstr := [
  "t1 = 3 ** (0.1e1 / 0.3e1)";
  "t3 = (0.1e1 / math.pi) ** (0.1e1 / 0.3e1)";
  "t4 = t1 * t3";
  "t5 = 4 ** (0.1e1 / 0.3e1)";
  "t6 = t5 ** 2";
  "t7 = r0 ** (0.1e1 / 0.3e1)";
  "t9 = t6 / t7";
  "t10 = t4 * t9";
  "t11 = t10 / 0.4e1";
  "t12 = math.sqrt(t10)";
  "t15 = 0.1e1 / (t11 + 0.65360000000000000000e1 * t12 + 0.427198e2)";
  "t19 = math.log(t4 * t9 * t15 / 0.4e1)";
  "t24 = math.atan(0.44899888641287296627e-1 / (t12 + 0.130720e2))";
  "t26 = t12 / 0.2e1";
  "t28 = (t26 + 0.409286e0) ** 2";
  "t30 = math.log(t28 * t15)";
  "t34 = p_a_zeta_threshold ** (0.1e1 / 0.3e1)";
  "t36 = lax_cond(0.1e1 <= p_a_zeta_threshold, t34 * p_a_zeta_threshold, 1)";
  "t38 = 0.2e1 * t36 - 0.2e1";
  "t39 = 2 ** (0.1e1 / 0.3e1)";
  "t42 = 0.1e1 / (0.2e1 * t39 - 0.2e1)";
  "t48 = 0.1e1 / (t11 + 0.10061550000000000000e2 * t12 + 0.101578e3)";
  "t52 = math.log(t4 * t9 * t48 / 0.4e1)";
  "t57 = math.atan(0.11716852777089929792e1 / (t12 + 0.201231e2))";
  "t60 = (t26 + 0.743294e0) ** 2";
  "t62 = math.log(t60 * t48)";
  "res = (0.310907e-1 * t19 + 0.20521972937837502661e2 * t24 + 0.44313737677495382697e-2 * t30) * (-t38 * t42 + 0.1e1) + (0.1554535e-1 * t52 + 0.61881802979060631482e0 * t57 + 0.26673100072733151594e-2 * t62) * t38 * t42"]%b.

(* gen_repo/impl/prebuilt/pol/lda_c_w20.py *)
Definition pol_lda_c_w20 : list bstr := [
  "t1 = math.log(0.2e1)";
  "t2 = 0.1e1 - t1";
  "t3 = math.pi ** 2";
  "t4 = 0.1e1 / t3";
  "t5 = t2 * t4";
  "t6 = t1 / 0.6e1";
  "t7 = 0.90154267736969571405e0 * t4";
  "t9 = 0.1e1 / t2";
  "t13 = math.exp(-0.2e1 * (-0.71100e-1 + t6 - t7) * t9 * t3)";
  "t14 = 3 ** (0.1e1 / 0.3e1)";
  "t15 = t14 ** 2";
  "t17 = (0.1e1 / math.pi) ** (0.1e1 / 0.3e1)";
  "t18 = t17 ** 2";
  "t20 = 4 ** (0.1e1 / 0.3e1)";
  "t21 = r0 + r1";
  "t22 = t21 ** (0.1e1 / 0.3e1)";
  "t23 = t22 ** 2";
  "t28 = math.exp(-t15 * t18 * t20 / t23 / 0.40000e5)";
  "t29 = 0.1e1 - t28";
  "t30 = math.pi ** (0.1e1 / 0.3e1)";
  "t31 = t30 ** 2";
  "t33 = 9 ** (0.1e1 / 0.3e1)";
  "t34 = 0.1e1 / t31 * t33";
  "t35 = t20 ** 2";
  "t41 = t13 / 0.2e1";
  "t47 = 0.1e1 / t17";
  "t49 = t47 * t20 * t22";
  "t53 = math.sqrt(0.4e1)";
  "t55 = t14 * t17";
  "t56 = 0.1e1 / t22";
  "t58 = t55 * t35 * t56";
  "t59 = math.sqrt(t58)";
  "t63 = t29 * t9 * t3 * t53 / t59 / t58";
  "t65 = t33 ** 2";
  "t66 = t65 * t20";
  "t67 = t31 * t3";
  "t78 = 0.1e1 / t18 * t35 * t23";
  "t82 = math.log(0.1e1 + (t13 - 0.2e1 * t29 * ((-0.9e0 + 0.3e1 / 0.16e2 * t34 * t35) * t9 * t3 + t41)) * t15 * t49 / 0.3e1 - 0.120e2 * t63 + (t13 - 0.2e1 * t29 * (-0.3e1 / 0.40e2 * t66 * t67 * t9 + t41)) * t14 * t78 / 0.3e1)";
  "t84 = t5 * t82 / 0.2e1";
  "t86 = t56 * t28";
  "t87 = 4 ** (0.1e1 / 0.4e1)";
  "t88 = t87 ** 2";
  "t90 = t58 ** (0.1e1 / 0.4e1)";
  "t95 = 0.1e1 / (t28 + 0.5e1 / 0.8e1 * t88 * t87 * t90 * t58)";
  "t98 = 0.1e1 / t30 / t3 / math.pi";
  "t100 = 0.12e2 * t1";
  "t108 = math.log(0.1e1 + t15 * t47 * t20 * t22 / 0.3e1)";
  "t116 = t55 * t35 * t86 * t95 * (-t66 * t98 * (0.7e1 / 0.6e1 * t3 - t100 - 0.1e1) * t108 / 0.36e2 - 0.1e-1) / 0.4e1";
  "t121 = math.exp(-0.4e1 * (-0.49917e-1 + t6 - t7) * t9 * t3)";
  "t122 = 2 ** (0.1e1 / 0.3e1)";
  "t130 = t121 / 0.2e1";
  "t139 = t122 ** 2";
  "t152 = math.log(0.1e1 + (t121 - 0.2e1 * t29 * (0.2e1 * (-0.9e0 + 0.3e1 / 0.16e2 * t34 * t35 * t122) * t9 * t3 + t130)) * t15 * t49 / 0.3e1 - 0.240e2 * t63 + (t121 - 0.2e1 * t29 * (-0.3e1 / 0.20e2 * t66 * t67 * t139 * t9 + t130)) * t14 * t78 / 0.3e1)";
  "t168 = (r0 - r1) / t21";
  "t169 = 0.1e1 + t168";
  "t171 = p_a_zeta_threshold ** (0.1e1 / 0.3e1)";
  "t172 = t171 * p_a_zeta_threshold";
  "t173 = t169 ** (0.1e1 / 0.3e1)";
  "t175 = lax_cond(t169 <= p_a_zeta_threshold, t172, t173 * t169)";
  "t176 = 0.1e1 - t168";
  "t178 = t176 ** (0.1e1 / 0.3e1)";
  "t180 = lax_cond(t176 <= p_a_zeta_threshold, t172, t178 * t176)";
  "res = -t84 + t116 + (-t5 * t152 / 0.4e1 - t55 * t86 * t95 * t139 * t65 * t98 * (0.13e2 / 0.12e2 * t3 - t100 + 0.1e1 / 0.2e1) * t108 / 0.144e3 + t84 - t116) * (t175 + t180 - 0.2e1) / (0.2e1 * t122 - 0.2e1)"]%b.

(* gen_repo/impl/prebuilt/unpol/lda_c_w20.py *)
Definition unpol_lda_c_w20 : list bstr := [
  "t1 = math.log(0.2e1)";
  "t2 = 0.1e1 - t1";
  "t3 = math.pi ** 2";
  "t4 = 0.1e1 / t3";
  "t5 = t2 * t4";
  "t6 = t1 / 0.6e1";
  "t7 = 0.90154267736969571405e0 * t4";
  "t9 = 0.1e1 / t2";
  "t13 = math.exp(-0.2e1 * (-0.71100e-1 + t6 - t7) * t9 * t3)";
  "t14 = 3 ** (0.1e1 / 0.3e1)";
  "t15 = t14 ** 2";
  "t17 = (0.1e1 / math.pi) ** (0.1e1 / 0.3e1)";
  "t18 = t17 ** 2";
  "t20 = 4 ** (0.1e1 / 0.3e1)";
  "t21 = r0 ** (0.1e1 / 0.3e1)";
  "t22 = t21 ** 2";
  "t27 = math.exp(-t15 * t18 * t20 / t22 / 0.40000e5)";
  "t28 = 0.1e1 - t27";
  "t29 = math.pi ** (0.1e1 / 0.3e1)";
  "t30 = t29 ** 2";
  "t32 = 9 ** (0.1e1 / 0.3e1)";
  "t33 = 0.1e1 / t30 * t32";
  "t34 = t20 ** 2";
  "t40 = t13 / 0.2e1";
  "t46 = 0.1e1 / t17";
  "t48 = t46 * t20 * t21";
  "t52 = math.sqrt(0.4e1)";
  "t54 = t14 * t17";
  "t55 = 0.1e1 / t21";
  "t57 = t54 * t34 * t55";
  "t58 = math.sqrt(t57)";
  "t62 = t28 * t9 * t3 * t52 / t58 / t57";
  "t64 = t32 ** 2";
  "t65 = t64 * t20";
  "t66 = t30 * t3";
  "t77 = 0.1e1 / t18 * t34 * t22";
  "t81 = math.log(0.1e1 + (t13 - 0.2e1 * t28 * ((-0.9e0 + 0.3e1 / 0.16e2 * t33 * t34) * t9 * t3 + t40)) * t15 * t48 / 0.3e1 - 0.120e2 * t62 + (t13 - 0.2e1 * t28 * (-0.3e1 / 0.40e2 * t65 * t66 * t9 + t40)) * t14 * t77 / 0.3e1)";
  "t83 = t5 * t81 / 0.2e1";
  "t85 = t55 * t27";
  "t86 = 4 ** (0.1e1 / 0.4e1)";
  "t87 = t86 ** 2";
  "t89 = t57 ** (0.1e1 / 0.4e1)";
  "t94 = 0.1e1 / (t27 + 0.5e1 / 0.8e1 * t87 * t86 * t89 * t57)";
  "t97 = 0.1e1 / t29 / t3 / math.pi";
  "t99 = 0.12e2 * t1";
  "t107 = math.log(0.1e1 + t15 * t46 * t20 * t21 / 0.3e1)";
  "t115 = t54 * t34 * t85 * t94 * (-t65 * t97 * (0.7e1 / 0.6e1 * t3 - t99 - 0.1e1) * t107 / 0.36e2 - 0.1e-1) / 0.4e1";
  "t120 = math.exp(-0.4e1 * (-0.49917e-1 + t6 - t7) * t9 * t3)";
  "t121 = 2 ** (0.1e1 / 0.3e1)";
  "t129 = t120 / 0.2e1";
  "t138 = t121 ** 2";
  "t151 = math.log(0.1e1 + (t120 - 0.2e1 * t28 * (0.2e1 * (-0.9e0 + 0.3e1 / 0.16e2 * t33 * t34 * t121) * t9 * t3 + t129)) * t15 * t48 / 0.3e1 - 0.240e2 * t62 + (t120 - 0.2e1 * t28 * (-0.3e1 / 0.20e2 * t65 * t66 * t138 * t9 + t129)) * t14 * t77 / 0.3e1)";
  "t166 = p_a_zeta_threshold ** (0.1e1 / 0.3e1)";
  "t168 = lax_cond(0.1e1 <= p_a_zeta_threshold, t166 * p_a_zeta_threshold, 1)";
  "res = -t83 + t115 + (-t5 * t151 / 0.4e1 - t54 * t85 * t94 * t138 * t64 * t97 * (0.13e2 / 0.12e2 * t3 - t99 + 0.1e1 / 0.2e1) * t107 / 0.144e3 + t83 - t115) * (0.2e1 * t168 - 0.2e1) / (0.2e1 * t121 - 0.2e1)"]%b.

(* gen_repo/impl/prebuilt/pol/lda_c_wigner.py *)
Definition pol_lda_c_wigner : list bstr := [
  "t2 = (r0 - r1) ** 2";
  "t3 = r0 + r1";
  "t4 = t3 ** 2";
  "t9 = 3 ** (0.1e1 / 0.3e1)";
  "t11 = (0.1e1 / math.pi) ** (0.1e1 / 0.3e1)";
  "t13 = 4 ** (0.1e1 / 0.3e1)";
  "t14 = t13 ** 2";
  "t15 = t3 ** (0.1e1 / 0.3e1)";
  "res = (0.1e1 - t2 / t4) * params_a_a / (params_a_b + t9 * t11 * t14 / t15 / 0.4e1)"]%b.

(* gen_repo/impl/prebuilt/unpol/lda_c_wigner.py *)
Definition unpol_lda_c_wigner : list bstr := [
  "t1 = 3 ** (0.1e1 / 0.3e1)";
  "t3 = (0.1e1 / math.pi) ** (0.1e1 / 0.3e1)";
  "t5 = 4 ** (0.1e1 / 0.3e1)";
  "t6 = t5 ** 2";
  "t7 = r0 ** (0.1e1 / 0.3e1)";
  "res = params_a_a / (params_a_b + t1 * t3 * t6 / t7 / 0.4e1)"]%b.

(* gen_repo/impl/prebuilt/pol/lda_k_gds08_worker.py *)
Definition pol_lda_k_gds08_worker : list bstr := [
  "t3 = r0 + r1";
  "t4 = 0.1e1 / t3";
  "t5 = (r0 - r1) * t4";
  "t7 = 0.1e1 + t5 <= p_a_zeta_threshold";
  "t8 = p_a_zeta_threshold - 0.1e1";
  "t10 = 0.1e1 - t5 <= p_a_zeta_threshold";
  "t11 = -t8";
  "t12 = lax_cond(t10, t11, t5)";
  "t13 = lax_cond(t7, t8, t12)";
  "t17 = 0.2e1 * r0 * t4 <= p_a_zeta_threshold";
  "t20 = 0.2e1 * r1 * t4 <= p_a_zeta_threshold";
  "t21 = lax_cond(t20, t11, t5)";
  "t22 = lax_cond(t17, t8, t21)";
  "t25 = math.log((0.1e1 + t22) * t3)";
  "t27 = t25 ** 2";
  "t32 = lax_cond(r0 <= p_a_dens_threshold, 0, (0.1e1 + t13) * (params_a_B * t25 + params_a_C * t27 + params_a_A) / 0.2e1)";
  "t34 = lax_cond(t7, t11, -t5)";
  "t35 = lax_cond(t10, t8, t34)";
  "t37 = lax_cond(t17, t11, -t5)";
  "t38 = lax_cond(t20, t8, t37)";
  "t41 = math.log((0.1e1 + t38) * t3)";
  "t43 = t41 ** 2";
  "t48 = lax_cond(r1 <= p_a_dens_threshold, 0, (0.1e1 + t35) * (params_a_B * t41 + params_a_C * t43 + params_a_A) / 0.2e1)";
  "res = t32 + t48"]%b.

(* gen_repo/impl/prebuilt/unpol/lda_k_gds08_worker.py *)
Definition unpol_lda_k_gds08_worker : list bstr := [
  "t3 = 0.1e1 <= p_a_zeta_threshold";
  "t4 = p_a_zeta_threshold - 0.1e1";
  "t6 = lax_cond(t3, -t4, 0)";
  "t7 = lax_cond(t3, t4, t6)";
  "t8 = 0.1e1 + t7";
  "t10 = math.log(t8 * r0)";
  "t12 = t10 ** 2";
  "t17 = lax_cond(r0 / 0.2e1 <= p_a_dens_threshold, 0, t8 * (params_a_B * t10 + params_a_C * t12 + params_a_A) / 0.2e1)";
  "res = 0.2e1 * t17"]%b.

(* gen_repo/impl/prebuilt/pol/lda_k_tf.py *)
Definition pol_lda_k_tf : list bstr := [
  "t2 = r0 + r1";
  "t4 = (r0 - r1) / t2";
  "t5 = 0.1e1 + t4";
  "t7 = p_a_zeta_threshold ** (0.1e1 / 0.3e1)";
  "t8 = t7 ** 2";
  "t9 = t8 * p_a_zeta_threshold";
  "t10 = t5 ** (0.1e1 / 0.3e1)";
  "t11 = t10 ** 2";
  "t13 = lax_cond(t5 <= p_a_zeta_threshold, t9, t11 * t5)";
  "t14 = 0.1e1 - t4";
  "t16 = t14 ** (0.1e1 / 0.3e1)";
  "t17 = t16 ** 2";
  "t19 = lax_cond(t14 <= p_a_zeta_threshold, t9, t17 * t14)";
  "t23 = 3 ** (0.1e1 / 0.3e1)";
  "t26 = (0.1e1 / math.pi) ** (0.1e1 / 0.3e1)";
  "t27 = t26 ** 2";
  "t29 = 4 ** (0.1e1 / 0.3e1)";
  "t30 = t29 ** 2";
  "t32 = t2 ** (0.1e1 / 0.3e1)";
  "t33 = t32 ** 2";
  "res = params_a_ax * (t13 / 0.2e1 + t19 / 0.2e1) * t23 / t27 * t30 * t33 / 0.3e1"]%b.

(* gen_repo/impl/prebuilt/unpol/lda_k_tf.py *)
Definition unpol_lda_k_tf : list bstr := [
  "t2 = p_a_zeta_threshold ** (0.1e1 / 0.3e1)";
  "t3 = t2 ** 2";
  "t5 = lax_cond(0.1e1 <= p_a_zeta_threshold, t3 * p_a_zeta_threshold, 1)";
  "t7 = 3 ** (0.1e1 / 0.3e1)";
  "t10 = (0.1e1 / math.pi) ** (0.1e1 / 0.3e1)";
  "t11 = t10 ** 2";
  "t13 = 4 ** (0.1e1 / 0.3e1)";
  "t14 = t13 ** 2";
  "t16 = r0 ** (0.1e1 / 0.3e1)";
  "t17 = t16 ** 2";
  "res = params_a_ax * t5 * t7 / t11 * t14 * t17 / 0.3e1"]%b.

(* gen_repo/impl/prebuilt/pol/lda_k_zlp.py *)
Definition pol_lda_k_zlp : list bstr := [
  "t1 = 3 ** (0.1e1 / 0.3e1)";
  "t2 = t1 ** 2";
  "t4 = (0.1e1 / math.pi) ** (0.1e1 / 0.3e1)";
  "t7 = 4 ** (0.1e1 / 0.3e1)";
  "t10 = r0 + r1";
  "t12 = (r0 - r1) / t10";
  "t13 = 0.1e1 + t12";
  "t15 = p_a_zeta_threshold ** (0.1e1 / 0.3e1)";
  "t16 = t15 ** 2";
  "t17 = t16 * p_a_zeta_threshold";
  "t18 = t13 ** (0.1e1 / 0.3e1)";
  "t19 = t18 ** 2";
  "t21 = lax_cond(t13 <= p_a_zeta_threshold, t17, t19 * t13)";
  "t22 = 0.1e1 - t12";
  "t24 = t22 ** (0.1e1 / 0.3e1)";
  "t25 = t24 ** 2";
  "t27 = lax_cond(t22 <= p_a_zeta_threshold, t17, t25 * t22)";
  "t30 = t10 ** (0.1e1 / 0.3e1)";
  "t31 = t30 ** 2";
  "t36 = math.log(0.1e1 + 0.51020408163265306120e3 / t30)";
  "res = 0.10790666666666666667e1 * t2 / t4 * t7 * (t21 / 0.2e1 + t27 / 0.2e1) * t31 * (0.1e1 - 0.19600000000000000000e-2 * t30 * t36)"]%b.

(* gen_repo/impl/prebuilt/unpol/lda_k_zlp.py *)
Definition unpol_lda_k_zlp : list bstr := [
  "t1 = 3 ** (0.1e1 / 0.3e1)";
  "t2 = t1 ** 2";
  "t4 = (0.1e1 / math.pi) ** (0.1e1 / 0.3e1)";
  "t7 = 4 ** (0.1e1 / 0.3e1)";
  "t10 = p_a_zeta_threshold ** (0.1e1 / 0.3e1)";
  "t11 = t10 ** 2";
  "t13 = lax_cond(0.1e1 <= p_a_zeta_threshold, t11 * p_a_zeta_threshold, 1)";
  "t14 = r0 ** (0.1e1 / 0.3e1)";
  "t15 = t14 ** 2";
  "t20 = math.log(0.1e1 + 0.51020408163265306120e3 / t14)";
  "res = 0.10790666666666666667e1 * t2 / t4 * t7 * t13 * t15 * (0.1e1 - 0.19600000000000000000e-2 * t14 * t20)"]%b.

(* gen_repo/impl/prebuilt/pol/lda_x.py *)
Definition pol_lda_x : list bstr := [
  "t2 = 3 ** (0.1e1 / 0.3e1)";
  "t3 = math.pi ** (0.1e1 / 0.3e1)";
  "t5 = t2 / t3";
  "t6 = r0 + r1";
  "t7 = 0.1e1 / t6";
  "t8 = r0 * t7";
  "t11 = p_a_zeta_threshold ** (0.1e1 / 0.3e1)";
  "t12 = t11 * p_a_zeta_threshold";
  "t13 = 2 ** (0.1e1 / 0.3e1)";
  "t15 = t8 ** (0.1e1 / 0.3e1)";
  "t19 = lax_cond(0.2e1 * t8 <= p_a_zeta_threshold, t12, 0.2e1 * t13 * r0 * t7 * t15)";
  "t20 = t6 ** (0.1e1 / 0.3e1)";
  "t24 = lax_cond(r0 <= p_a_dens_threshold, 0, -0.3e1 / 0.8e1 * t5 * t19 * t20)";
  "t27 = r1 * t7";
  "t31 = t27 ** (0.1e1 / 0.3e1)";
  "t35 = lax_cond(0.2e1 * t27 <= p_a_zeta_threshold, t12, 0.2e1 * t13 * r1 * t7 * t31)";
  "t39 = lax_cond(r1 <= p_a_dens_threshold, 0, -0.3e1 / 0.8e1 * t5 * t35 * t20)";
  "res = params_a_alpha * t24 + params_a_alpha * t39"]%b.

(* gen_repo/impl/prebuilt/unpol/lda_x.py *)
Definition unpol_lda_x : list bstr := [
  "t3 = 3 ** (0.1e1 / 0.3e1)";
  "t4 = math.pi ** (0.1e1 / 0.3e1)";
  "t8 = p_a_zeta_threshold ** (0.1e1 / 0.3e1)";
  "t10 = lax_cond(0.1e1 <= p_a_zeta_threshold, t8 * p_a_zeta_threshold, 1)";
  "t11 = r0 ** (0.1e1 / 0.3e1)";
  "t15 = lax_cond(r0 / 0.2e1 <= p_a_dens_threshold, 0, -0.3e1 / 0.8e1 * t3 / t4 * t10 * t11)";
  "res = 0.2e1 * params_a_alpha * t15"]%b.

(* gen_repo/impl/prebuilt/pol/lda_x_1d_exponential.py *)
Definition pol_lda_x_1d_exponential : list bstr := [
  "t3 = r0 + r1";
  "t4 = 0.1e1 / t3";
  "t5 = (r0 - r1) * t4";
  "t7 = 0.1e1 + t5 <= p_a_zeta_threshold";
  "t8 = jnp.logical_or(r0 <= p_a_dens_threshold, t7)";
  "t9 = p_a_zeta_threshold - 0.1e1";
  "t11 = 0.1e1 - t5 <= p_a_zeta_threshold";
  "t12 = -t9";
  "t13 = lax_cond(t11, t12, t5)";
  "t14 = lax_cond(t7, t9, t13)";
  "t15 = 0.1e1 + t14";
  "t17 = params_a_beta * t3";
  "t18 = t15 * math.pi * t17";
  "t19 = int1(t18)";
  "t21 = int2(t18)";
  "t22 = 0.1e1 / math.pi";
  "t24 = 0.1e1 / params_a_beta";
  "t25 = t24 * t4";
  "t31 = lax_cond(t8, 0, -0.25000000000000000000e0 * (-t21 * t22 * t25 + t15 * t19) * t22 * t24)";
  "t33 = jnp.logical_or(r1 <= p_a_dens_threshold, t11)";
  "t34 = lax_cond(t7, t12, -t5)";
  "t35 = lax_cond(t11, t9, t34)";
  "t36 = 0.1e1 + t35";
  "t38 = t36 * math.pi * t17";
  "t39 = int1(t38)";
  "t41 = int2(t38)";
  "t48 = lax_cond(t33, 0, -0.25000000000000000000e0 * (-t41 * t22 * t25 + t36 * t39) * t22 * t24)";
  "res = t31 + t48"]%b.

(* gen_repo/impl/prebuilt/unpol/lda_x_1d_exponential.py *)
Definition unpol_lda_x_1d_exponential : list bstr := [
  "t3 = 0.1e1 <= p_a_zeta_threshold";
  "t4 = jnp.logical_or(r0 / 0.2e1 <= p_a_dens_threshold, t3)";
  "t5 = p_a_zeta_threshold - 0.1e1";
  "t7 = lax_cond(t3, -t5, 0)";
  "t8 = lax_cond(t3, t5, t7)";
  "t9 = 0.1e1 + t8";
  "t12 = t9 * math.pi * params_a_beta * r0";
  "t13 = int1(t12)";
  "t15 = int2(t12)";
  "t16 = 0.1e1 / math.pi";
  "t18 = 0.1e1 / params_a_beta";
  "t26 = lax_cond(t4, 0, -0.25000000000000000000e0 * (t9 * t13 - t15 * t16 * t18 / r0) * t16 * t18)";
  "res = 0.2e1 * t26"]%b.

(* gen_repo/impl/prebuilt/pol/lda_x_1d_soft.py *)
Definition pol_lda_x_1d_soft : list bstr := [
  "t3 = r0 + r1";
  "t4 = 0.1e1 / t3";
  "t5 = (r0 - r1) * t4";
  "t7 = 0.1e1 + t5 <= p_a_zeta_threshold";
  "t8 = jnp.logical_or(r0 <= p_a_dens_threshold, t7)";
  "t9 = p_a_zeta_threshold - 0.1e1";
  "t11 = 0.1e1 - t5 <= p_a_zeta_threshold";
  "t12 = -t9";
  "t13 = lax_cond(t11, t12, t5)";
  "t14 = lax_cond(t7, t9, t13)";
  "t15 = 0.1e1 + t14";
  "t17 = params_a_beta * t3";
  "t18 = t15 * math.pi * t17";
  "t19 = int1(t18)";
  "t21 = int2(t18)";
  "t22 = 0.1e1 / math.pi";
  "t24 = 0.1e1 / params_a_beta";
  "t25 = t24 * t4";
  "t31 = lax_cond(t8, 0, -0.25000000000000000000e0 * (-t21 * t22 * t25 + t15 * t19) * t22 * t24)";
  "t33 = jnp.logical_or(r1 <= p_a_dens_threshold, t11)";
  "t34 = lax_cond(t7, t12, -t5)";
  "t35 = lax_cond(t11, t9, t34)";
  "t36 = 0.1e1 + t35";
  "t38 = t36 * math.pi * t17";
  "t39 = int1(t38)";
  "t41 = int2(t38)";
  "t48 = lax_cond(t33, 0, -0.25000000000000000000e0 * (-t41 * t22 * t25 + t36 * t39) * t22 * t24)";
  "res = t31 + t48"]%b.

(* gen_repo/impl/prebuilt/unpol/lda_x_1d_soft.py *)
Definition unpol_lda_x_1d_soft : list bstr := [
  "t3 = 0.1e1 <= p_a_zeta_threshold";
  "t4 = jnp.logical_or(r0 / 0.2e1 <= p_a_dens_threshold, t3)";
  "t5 = p_a_zeta_threshold - 0.1e1";
  "t7 = lax_cond(t3, -t5, 0)";
  "t8 = lax_cond(t3, t5, t7)";
  "t9 = 0.1e1 + t8";
  "t12 = t9 * math.pi * params_a_beta * r0";
  "t13 = int1(t12)";
  "t15 = int2(t12)";
  "t16 = 0.1e1 / math.pi";
  "t18 = 0.1e1 / params_a_beta";
  "t26 = lax_cond(t4, 0, -0.25000000000000000000e0 * (t9 * t13 - t15 * t16 * t18 / r0) * t16 * t18)";
  "res = 0.2e1 * t26"]%b.

(* gen_repo/impl/prebuilt/pol/lda_x_2d.py *)
Definition pol_lda_x_2d : list bstr := [
  "t1 = math.sqrt(0.2e1)";
  "t2 = math.sqrt(math.pi)";
  "t6 = r0 + r1";
  "t8 = (r0 - r1) / t6";
  "t9 = 0.1e1 + t8";
  "t11 = math.sqrt(p_a_zeta_threshold)";
  "t12 = t11 * p_a_zeta_threshold";
  "t13 = math.sqrt(t9)";
  "t15 = lax_cond(t9 <= p_a_zeta_threshold, t12, t13 * t9)";
  "t16 = 0.1e1 - t8";
  "t18 = math.sqrt(t16)";
  "t20 = lax_cond(t16 <= p_a_zeta_threshold, t12, t18 * t16)";
  "t23 = math.sqrt(t6)";
  "res = -0.4e1 / 0.3e1 * t1 / t2 * (t15 / 0.2e1 + t20 / 0.2e1) * t23"]%b.

(* gen_repo/impl/prebuilt/unpol/lda_x_2d.py *)
Definition unpol_lda_x_2d : list bstr := [
  "t1 = math.sqrt(0.2e1)";
  "t2 = math.sqrt(math.pi)";
  "t6 = math.sqrt(p_a_zeta_threshold)";
  "t8 = lax_cond(0.1e1 <= p_a_zeta_threshold, t6 * p_a_zeta_threshold, 1)";
  "t9 = math.sqrt(r0)";
  "res = -0.4e1 / 0.3e1 * t1 / t2 * t8 * t9"]%b.

(* gen_repo/impl/prebuilt/pol/lda_x_erf.py *)
Definition pol_lda_x_erf : list bstr := [
  "t1 = 3 ** (0.1e1 / 0.3e1)";
  "t3 = (0.1e1 / math.pi) ** (0.1e1 / 0.3e1)";
  "t5 = 4 ** (0.1e1 / 0.3e1)";
  "t6 = t5 ** 2";
  "t7 = t1 * t3 * t6";
  "t8 = 2 ** (0.1e1 / 0.3e1)";
  "t9 = t8 ** 2";
  "t11 = r0 + r1";
  "t13 = (r0 - r1) / t11";
  "t14 = 0.1e1 + t13";
  "t15 = t14 <= p_a_zeta_threshold";
  "t16 = p_a_zeta_threshold ** (0.1e1 / 0.3e1)";
  "t17 = t16 * p_a_zeta_threshold";
  "t18 = t14 ** (0.1e1 / 0.3e1)";
  "t20 = lax_cond(t15, t17, t18 * t14)";
  "t22 = t11 ** (0.1e1 / 0.3e1)";
  "t23 = 9 ** (0.1e1 / 0.3e1)";
  "t24 = t23 ** 2";
  "t25 = t3 ** 2";
  "t27 = t24 * t25 * p_a_cam_omega";
  "t29 = t1 / t22";
  "t30 = lax_cond(t15, t16, t18)";
  "t34 = t27 * t29 / t30 / 0.18e2";
  "t36 = 0.135e1 < t34";
  "t37 = lax_cond(t36, t34, 0.135e1)";
  "t38 = t37 ** 2";
  "t41 = t38 ** 2";
  "t44 = t41 * t38";
  "t47 = t41 ** 2";
  "t59 = t47 ** 2";
  "t63 = lax_cond(t36, 0.135e1, t34)";
  "t64 = math.sqrt(math.pi)";
  "t67 = math.erf(0.1e1 / t63 / 0.2e1)";
  "t69 = t63 ** 2";
  "t72 = math.exp(-0.1e1 / t69 / 0.4e1)";
  "t83 = lax_cond(0.135e1 <= t34, 0.1e1 / t38 / 0.36e2 - 0.1e1 / t41 / 0.960e3 + 0.1e1 / t44 / 0.26880e5 - 0.1e1 / t47 / 0.829440e6 + 0.1e1 / t47 / t38 / 0.28385280e8 - 0.1e1 / t47 / t41 / 0.1073479680e10 + 0.1e1 / t47 / t44 / 0.44590694400e11 - 0.1e1 / t59 / 0.2021444812800e13, 0.1e1 - 0.8e1 / 0.3e1 * t63 * (t64 * t67 + 0.2e1 * t63 * (t72 - 0.3e1 / 0.2e1 - 0.2e1 * t69 * (t72 - 0.1e1))))";
  "t87 = 0.1e1 - t13";
  "t88 = t87 <= p_a_zeta_threshold";
  "t89 = t87 ** (0.1e1 / 0.3e1)";
  "t91 = lax_cond(t88, t17, t89 * t87)";
  "t93 = lax_cond(t88, t16, t89)";
  "t97 = t27 * t29 / t93 / 0.18e2";
  "t99 = 0.135e1 < t97";
  "t100 = lax_cond(t99, t97, 0.135e1)";
  "t101 = t100 ** 2";
  "t104 = t101 ** 2";
  "t107 = t104 * t101";
  "t110 = t104 ** 2";
  "t122 = t110 ** 2";
  "t126 = lax_cond(t99, 0.135e1, t97)";
  "t129 = math.erf(0.1e1 / t126 / 0.2e1)";
  "t131 = t126 ** 2";
  "t134 = math.exp(-0.1e1 / t131 / 0.4e1)";
  "t145 = lax_cond(0.135e1 <= t97, 0.1e1 / t101 / 0.36e2 - 0.1e1 / t104 / 0.960e3 + 0.1e1 / t107 / 0.26880e5 - 0.1e1 / t110 / 0.829440e6 + 0.1e1 / t110 / t101 / 0.28385280e8 - 0.1e1 / t110 / t104 / 0.1073479680e10 + 0.1e1 / t110 / t107 / 0.44590694400e11 - 0.1e1 / t122 / 0.2021444812800e13, 0.1e1 - 0.8e1 / 0.3e1 * t126 * (t64 * t129 + 0.2e1 * t126 * (t134 - 0.3e1 / 0.2e1 - 0.2e1 * t131 * (t134 - 0.1e1))))";
  "res = -0.3e1 / 0.32e2 * t7 * t9 * t91 * t22 * t145 - 0.3e1 / 0.32e2 * t7 * t9 * t20 * t22 * t83"]%b.

(* gen_repo/impl/prebuilt/unpol/lda_x_erf.py *)
Definition unpol_lda_x_erf : list bstr := [
  "t1 = 3 ** (0.1e1 / 0.3e1)";
  "t3 = (0.1e1 / math.pi) ** (0.1e1 / 0.3e1)";
  "t5 = 4 ** (0.1e1 / 0.3e1)";
  "t6 = t5 ** 2";
  "t8 = 2 ** (0.1e1 / 0.3e1)";
  "t9 = t8 ** 2";
  "t10 = 0.1e1 <= p_a_zeta_threshold";
  "t11 = p_a_zeta_threshold ** (0.1e1 / 0.3e1)";
  "t13 = lax_cond(t10, t11 * p_a_zeta_threshold, 1)";
  "t15 = r0 ** (0.1e1 / 0.3e1)";
  "t16 = 9 ** (0.1e1 / 0.3e1)";
  "t17 = t16 ** 2";
  "t18 = t3 ** 2";
  "t23 = lax_cond(t10, t11, 1)";
  "t27 = t17 * t18 * p_a_cam_omega * t1 / t15 / t23 / 0.18e2";
  "t29 = 0.135e1 < t27";
  "t30 = lax_cond(t29, t27, 0.135e1)";
  "t31 = t30 ** 2";
  "t34 = t31 ** 2";
  "t37 = t34 * t31";
  "t40 = t34 ** 2";
  "t52 = t40 ** 2";
  "t56 = lax_cond(t29, 0.135e1, t27)";
  "t57 = math.sqrt(math.pi)";
  "t60 = math.erf(0.1e1 / t56 / 0.2e1)";
  "t62 = t56 ** 2";
  "t65 = math.exp(-0.1e1 / t62 / 0.4e1)";
  "t76 = lax_cond(0.135e1 <= t27, 0.1e1 / t31 / 0.36e2 - 0.1e1 / t34 / 0.960e3 + 0.1e1 / t37 / 0.26880e5 - 0.1e1 / t40 / 0.829440e6 + 0.1e1 / t40 / t31 / 0.28385280e8 - 0.1e1 / t40 / t34 / 0.1073479680e10 + 0.1e1 / t40 / t37 / 0.44590694400e11 - 0.1e1 / t52 / 0.2021444812800e13, 0.1e1 - 0.8e1 / 0.3e1 * t56 * (t57 * t60 + 0.2e1 * t56 * (t65 - 0.3e1 / 0.2e1 - 0.2e1 * t62 * (t65 - 0.1e1))))";
  "res = -0.3e1 / 0.16e2 * t1 * t3 * t6 * t9 * t13 * t15 * t76"]%b.

(* gen_repo/impl/prebuilt/pol/lda_x_rel.py *)
Definition pol_lda_x_rel : list bstr := [
  "t2 = 3 ** (0.1e1 / 0.3e1)";
  "t3 = math.pi ** (0.1e1 / 0.3e1)";
  "t4 = 0.1e1 / t3";
  "t5 = t2 * t4";
  "t6 = r0 + r1";
  "t7 = 0.1e1 / t6";
  "t8 = r0 * t7";
  "t11 = p_a_zeta_threshold ** (0.1e1 / 0.3e1)";
  "t12 = t11 * p_a_zeta_threshold";
  "t13 = 2 ** (0.1e1 / 0.3e1)";
  "t15 = t8 ** (0.1e1 / 0.3e1)";
  "t19 = lax_cond(0.2e1 * t8 <= p_a_zeta_threshold, t12, 0.2e1 * t13 * r0 * t7 * t15)";
  "t20 = t6 ** (0.1e1 / 0.3e1)";
  "t24 = lax_cond(r0 <= p_a_dens_threshold, 0, -0.3e1 / 0.8e1 * t5 * t19 * t20)";
  "t26 = r1 * t7";
  "t30 = t26 ** (0.1e1 / 0.3e1)";
  "t34 = lax_cond(0.2e1 * t26 <= p_a_zeta_threshold, t12, 0.2e1 * t13 * r1 * t7 * t30)";
  "t38 = lax_cond(r1 <= p_a_dens_threshold, 0, -0.3e1 / 0.8e1 * t5 * t34 * t20)";
  "t40 = 9 ** (0.1e1 / 0.3e1)";
  "t41 = t40 ** 2";
  "t42 = t3 ** 2";
  "t45 = (0.1e1 / math.pi) ** (0.1e1 / 0.3e1)";
  "t46 = t45 ** 2";
  "t49 = t20 ** 2";
  "t54 = math.sqrt(0.1e1 + 0.17750451365686221606e-4 * t41 * t42 * t2 / t46 * t49)";
  "t63 = t2 ** 2";
  "t69 = math.asinh(0.24324508467583486202e-2 * t40 * t3 * t63 / t45 * t20)";
  "t79 = (0.15226222180972388889e2 * t54 * t41 * t4 * t2 * t45 / t20 - 0.20865405771390201384e4 * t69 * t40 / t42 * t63 * t46 / t49) ** 2";
  "res = (t24 + t38) * (0.1e1 - 0.15e1 * t79)"]%b.

(* gen_repo/impl/prebuilt/unpol/lda_x_rel.py *)
Definition unpol_lda_x_rel : list bstr := [
  "t3 = 3 ** (0.1e1 / 0.3e1)";
  "t4 = math.pi ** (0.1e1 / 0.3e1)";
  "t5 = 0.1e1 / t4";
  "t8 = p_a_zeta_threshold ** (0.1e1 / 0.3e1)";
  "t10 = lax_cond(0.1e1 <= p_a_zeta_threshold, t8 * p_a_zeta_threshold, 1)";
  "t11 = r0 ** (0.1e1 / 0.3e1)";
  "t15 = lax_cond(r0 / 0.2e1 <= p_a_dens_threshold, 0, -0.3e1 / 0.8e1 * t3 * t5 * t10 * t11)";
  "t16 = 9 ** (0.1e1 / 0.3e1)";
  "t17 = t16 ** 2";
  "t18 = t4 ** 2";
  "t21 = (0.1e1 / math.pi) ** (0.1e1 / 0.3e1)";
  "t22 = t21 ** 2";
  "t25 = t11 ** 2";
  "t30 = math.sqrt(0.1e1 + 0.17750451365686221606e-4 * t17 * t18 * t3 / t22 * t25)";
  "t39 = t3 ** 2";
  "t45 = math.asinh(0.24324508467583486202e-2 * t16 * t4 * t39 / t21 * t11)";
  "t55 = (0.15226222180972388889e2 * t30 * t17 * t5 * t3 * t21 / t11 - 0.20865405771390201384e4 * t45 * t16 / t18 * t39 * t22 / t25) ** 2";
  "res = 0.2e1 * t15 * (0.1e1 - 0.15e1 * t55)"]%b.

(* gen_repo/impl/prebuilt/pol/lda_x_sloc.py *)
Definition pol_lda_x_sloc : list bstr := [
  "t1 = params_a_b + 0.1e1";
  "t5 = r0 + r1";
  "t6 = t5 ** params_a_b";
  "t9 = (r0 - r1) / t5";
  "t10 = 0.1e1 + t9";
  "t12 = p_a_zeta_threshold ** t1";
  "t13 = t10 ** t1";
  "t14 = lax_cond(t10 <= p_a_zeta_threshold, t12, t13)";
  "t15 = 0.1e1 - t9";
  "t17 = t15 ** t1";
  "t18 = lax_cond(t15 <= p_a_zeta_threshold, t12, t17)";
  "res = -params_a_a / t1 * t6 * (t14 + t18) / 0.2e1"]%b.

(* gen_repo/impl/prebuilt/unpol/lda_x_sloc.py *)
Definition unpol_lda_x_sloc : list bstr := [
  "t1 = params_a_b + 0.1e1";
  "t5 = r0 ** params_a_b";
  "t7 = p_a_zeta_threshold ** t1";
  "t8 = lax_cond(0.1e1 <= p_a_zeta_threshold, t7, 1)";
  "res = -params_a_a / t1 * t5 * t8"]%b.

(* gen_repo/impl/prebuilt/pol/lda_x_yukawa.py *)
Definition pol_lda_x_yukawa : list bstr := [
  "t1 = 3 ** (0.1e1 / 0.3e1)";
  "t3 = (0.1e1 / math.pi) ** (0.1e1 / 0.3e1)";
  "t5 = 4 ** (0.1e1 / 0.3e1)";
  "t6 = t5 ** 2";
  "t7 = t1 * t3 * t6";
  "t8 = 2 ** (0.1e1 / 0.3e1)";
  "t9 = t8 ** 2";
  "t11 = r0 + r1";
  "t13 = (r0 - r1) / t11";
  "t14 = 0.1e1 + t13";
  "t15 = t14 <= p_a_zeta_threshold";
  "t16 = p_a_zeta_threshold ** (0.1e1 / 0.3e1)";
  "t17 = t16 * p_a_zeta_threshold";
  "t18 = t14 ** (0.1e1 / 0.3e1)";
  "t20 = lax_cond(t15, t17, t18 * t14)";
  "t22 = t11 ** (0.1e1 / 0.3e1)";
  "t23 = 9 ** (0.1e1 / 0.3e1)";
  "t24 = t23 ** 2";
  "t25 = t3 ** 2";
  "t27 = t24 * t25 * p_a_cam_omega";
  "t29 = t1 / t22";
  "t30 = lax_cond(t15, t16, t18)";
  "t34 = t27 * t29 / t30 / 0.18e2";
  "t36 = 0.192e1 < t34";
  "t37 = lax_cond(t36, t34, 0.192e1)";
  "t38 = t37 ** 2";
  "t41 = t38 ** 2";
  "t44 = t41 * t38";
  "t47 = t41 ** 2";
  "t50 = t47 * t38";
  "t53 = t47 * t41";
  "t56 = t47 * t44";
  "t59 = t47 ** 2";
  "t83 = t59 ** 2";
  "t92 = 0.1e1 / t38 / 0.9e1 - 0.1e1 / t41 / 0.30e2 + 0.1e1 / t44 / 0.70e2 - 0.1e1 / t47 / 0.135e3 + 0.1e1 / t50 / 0.231e3 - 0.1e1 / t53 / 0.364e3 + 0.1e1 / t56 / 0.540e3 - 0.1e1 / t59 / 0.765e3 + 0.1e1 / t59 / t38 / 0.1045e4 - 0.1e1 / t59 / t41 / 0.1386e4 + 0.1e1 / t59 / t44 / 0.1794e4 - 0.1e1 / t59 / t47 / 0.2275e4 + 0.1e1 / t59 / t50 / 0.2835e4 - 0.1e1 / t59 / t53 / 0.3480e4 + 0.1e1 / t59 / t56 / 0.4216e4 - 0.1e1 / t83 / 0.5049e4 + 0.1e1 / t83 / t38 / 0.5985e4 - 0.1e1 / t83 / t41 / 0.7030e4";
  "t93 = lax_cond(t36, 0.192e1, t34)";
  "t94 = math.atan2(0.1e1, t93)";
  "t95 = t93 ** 2";
  "t99 = math.log(0.1e1 + 0.1e1 / t95)";
  "t108 = lax_cond(0.192e1 <= t34, t92, 0.1e1 - 0.8e1 / 0.3e1 * t93 * (t94 + t93 * (0.1e1 - (t95 + 0.3e1) * t99) / 0.4e1))";
  "t112 = 0.1e1 - t13";
  "t113 = t112 <= p_a_zeta_threshold";
  "t114 = t112 ** (0.1e1 / 0.3e1)";
  "t116 = lax_cond(t113, t17, t114 * t112)";
  "t118 = lax_cond(t113, t16, t114)";
  "t122 = t27 * t29 / t118 / 0.18e2";
  "t124 = 0.192e1 < t122";
  "t125 = lax_cond(t124, t122, 0.192e1)";
  "t126 = t125 ** 2";
  "t129 = t126 ** 2";
  "t132 = t129 * t126";
  "t135 = t129 ** 2";
  "t138 = t135 * t126";
  "t141 = t135 * t129";
  "t144 = t135 * t132";
  "t147 = t135 ** 2";
  "t171 = t147 ** 2";
  "t180 = 0.1e1 / t126 / 0.9e1 - 0.1e1 / t129 / 0.30e2 + 0.1e1 / t132 / 0.70e2 - 0.1e1 / t135 / 0.135e3 + 0.1e1 / t138 / 0.231e3 - 0.1e1 / t141 / 0.364e3 + 0.1e1 / t144 / 0.540e3 - 0.1e1 / t147 / 0.765e3 + 0.1e1 / t147 / t126 / 0.1045e4 - 0.1e1 / t147 / t129 / 0.1386e4 + 0.1e1 / t147 / t132 / 0.1794e4 - 0.1e1 / t147 / t135 / 0.2275e4 + 0.1e1 / t147 / t138 / 0.2835e4 - 0.1e1 / t147 / t141 / 0.3480e4 + 0.1e1 / t147 / t144 / 0.4216e4 - 0.1e1 / t171 / 0.5049e4 + 0.1e1 / t171 / t126 / 0.5985e4 - 0.1e1 / t171 / t129 / 0.7030e4";
  "t181 = lax_cond(t124, 0.192e1, t122)";
  "t182 = math.atan2(0.1e1, t181)";
  "t183 = t181 ** 2";
  "t187 = math.log(0.1e1 + 0.1e1 / t183)";
  "t196 = lax_cond(0.192e1 <= t122, t180, 0.1e1 - 0.8e1 / 0.3e1 * t181 * (t182 + t181 * (0.1e1 - (t183 + 0.3e1) * t187) / 0.4e1))";
  "res = -0.3e1 / 0.32e2 * t7 * t9 * t20 * t22 * t108 - 0.3e1 / 0.32e2 * t7 * t9 * t116 * t22 * t196"]%b.

(* gen_repo/impl/prebuilt/unpol/lda_x_yukawa.py *)
Definition unpol_lda_x_yukawa : list bstr := [
  "t1 = 3 ** (0.1e1 / 0.3e1)";
  "t3 = (0.1e1 / math.pi) ** (0.1e1 / 0.3e1)";
  "t5 = 4 ** (0.1e1 / 0.3e1)";
  "t6 = t5 ** 2";
  "t8 = 2 ** (0.1e1 / 0.3e1)";
  "t9 = t8 ** 2";
  "t10 = 0.1e1 <= p_a_zeta_threshold";
  "t11 = p_a_zeta_threshold ** (0.1e1 / 0.3e1)";
  "t13 = lax_cond(t10, t11 * p_a_zeta_threshold, 1)";
  "t15 = r0 ** (0.1e1 / 0.3e1)";
  "t16 = 9 ** (0.1e1 / 0.3e1)";
  "t17 = t16 ** 2";
  "t18 = t3 ** 2";
  "t23 = lax_cond(t10, t11, 1)";
  "t27 = t17 * t18 * p_a_cam_omega * t1 / t15 / t23 / 0.18e2";
  "t29 = 0.192e1 < t27";
  "t30 = lax_cond(t29, t27, 0.192e1)";
  "t31 = t30 ** 2";
  "t34 = t31 ** 2";
  "t37 = t34 * t31";
  "t40 = t34 ** 2";
  "t43 = t40 * t31";
  "t46 = t40 * t34";
  "t49 = t40 * t37";
  "t52 = t40 ** 2";
  "t76 = t52 ** 2";
  "t85 = 0.1e1 / t31 / 0.9e1 - 0.1e1 / t34 / 0.30e2 + 0.1e1 / t37 / 0.70e2 - 0.1e1 / t40 / 0.135e3 + 0.1e1 / t43 / 0.231e3 - 0.1e1 / t46 / 0.364e3 + 0.1e1 / t49 / 0.540e3 - 0.1e1 / t52 / 0.765e3 + 0.1e1 / t52 / t31 / 0.1045e4 - 0.1e1 / t52 / t34 / 0.1386e4 + 0.1e1 / t52 / t37 / 0.1794e4 - 0.1e1 / t52 / t40 / 0.2275e4 + 0.1e1 / t52 / t43 / 0.2835e4 - 0.1e1 / t52 / t46 / 0.3480e4 + 0.1e1 / t52 / t49 / 0.4216e4 - 0.1e1 / t76 / 0.5049e4 + 0.1e1 / t76 / t31 / 0.5985e4 - 0.1e1 / t76 / t34 / 0.7030e4";
  "t86 = lax_cond(t29, 0.192e1, t27)";
  "t87 = math.atan2(0.1e1, t86)";
  "t88 = t86 ** 2";
  "t92 = math.log(0.1e1 + 0.1e1 / t88)";
  "t101 = lax_cond(0.192e1 <= t27, t85, 0.1e1 - 0.8e1 / 0.3e1 * t86 * (t87 + t86 * (0.1e1 - (t88 + 0.3e1) * t92) / 0.4e1))";
  "res = -0.3e1 / 0.16e2 * t1 * t3 * t6 * t9 * t13 * t15 * t101"]%b.

(* gen_repo/impl/prebuilt/pol/lda_xc_1d_ehwlrg.py *)
Definition pol_lda_xc_1d_ehwlrg : list bstr := [
  "t1 = r0 + r1";
  "t3 = t1 ** 2";
  "t6 = t1 ** params_a_alpha";
  "res = (params_a_a2 * t1 + params_a_a3 * t3 + params_a_a1) * t6"]%b.

(* gen_repo/impl/prebuilt/unpol/lda_xc_1d_ehwlrg.py *)
Definition unpol_lda_xc_1d_ehwlrg : list bstr := [
  "t1 = r0 ** 2";
  "t5 = r0 ** params_a_alpha";
  "res = (params_a_a2 * r0 + params_a_a3 * t1 + params_a_a1) * t5"]%b.

(* gen_repo/impl/prebuilt/pol/lda_xc_ksdt.py *)
Definition pol_lda_xc_ksdt : list bstr := [
  "t1 = 0.1e1 / math.pi";
  "t2 = 4 ** (0.1e1 / 0.3e1)";
  "t3 = t2 ** 2";
  "t5 = 9 ** (0.1e1 / 0.3e1)";
  "t7 = t1 ** (0.1e1 / 0.3e1)";
  "t8 = 0.1e1 / t7";
  "t9 = t5 ** 2";
  "t10 = t7 * t1";
  "t11 = 0.1e1 / t10";
  "t13 = 0.1e1 / params_a_T";
  "t14 = t9 * t11 * t13";
  "t15 = 3 ** (0.1e1 / 0.3e1)";
  "t16 = r0 + r1";
  "t17 = t16 ** (0.1e1 / 0.3e1)";
  "t18 = t17 ** 2";
  "t19 = t15 * t18";
  "t20 = r0 - r1";
  "t22 = 0.1e1 / t16";
  "t24 = params_a_thetaParam * t20 * t22 + 0.1e1";
  "t25 = t24 ** (0.1e1 / 0.3e1)";
  "t26 = t25 ** 2";
  "t27 = 0.1e1 / t26";
  "t31 = math.tanh(t14 * t19 * t27 / 0.6e1)";
  "t33 = math.pi ** 2";
  "t35 = t7 ** 2";
  "t36 = t35 / t33";
  "t38 = params_a_T ** 2";
  "t39 = t9 * t36 * t38";
  "t41 = 0.1e1 / t17 / t16";
  "t42 = t15 * t41";
  "t43 = t25 * t24";
  "t45 = t39 * t42 * t43";
  "t47 = t33 ** 2";
  "t51 = t16 ** 2";
  "t53 = t24 ** 2";
  "t55 = 0.1e1 / t47 * t38 * params_a_T / t51 * t53";
  "t59 = t7 / t47 / math.pi";
  "t61 = t38 ** 2";
  "t62 = t5 * t59 * t61";
  "t63 = t15 ** 2";
  "t65 = 0.1e1 / t18 / t51";
  "t66 = t63 * t65";
  "t67 = t26 * t53";
  "t69 = t62 * t66 * t67";
  "t80 = math.sqrt(0.2e1)";
  "t82 = t5 * t10 * params_a_T";
  "t84 = t63 / t18";
  "t87 = math.sqrt(t82 * t84 * t26)";
  "t91 = math.tanh(0.3e1 / 0.2e1 * t80 / t87)";
  "t98 = t38 * t15 * t41 * t43";
  "t106 = t61 * t63 * t65 * t67";
  "t126 = t15 * t7 * t3 / t17";
  "t127 = math.sqrt(t126)";
  "t141 = math.exp(-params_a_c_0_[2] * t9 * t11 * t13 * t15 * t18 * t27 / 0.6e1)";
  "t156 = params_a_e_0_[0] + 0.4e1 / 0.27e2 * params_a_e_0_[1] * t9 * t36 * t98 + 0.16e2 / 0.81e2 * params_a_e_0_[2] * t5 * t59 * t106";
  "t168 = 0.1e1 / (0.1e1 + 0.4e1 / 0.27e2 * params_a_e_0_[3] * t9 * t36 * t98 + 0.16e2 / 0.81e2 * params_a_e_0_[4] * t5 * t59 * t106)";
  "t211 = t20 * t22";
  "t212 = 0.1e1 + t211";
  "t229 = math.exp(-0.2e1 / 0.9e1 * t82 * t84 * t26 * (0.1064009e1 + 0.63618333333333333335e-1 * t82 * t84 * t26 * t127))";
  "t231 = 0.2e1 - (0.2e1 / 0.3e1 - 0.34815250000000000000e-2 * t126) / (0.1e1 + 0.45802000000000000000e-1 * t126) * t229";
  "t232 = p_a_zeta_threshold ** t231";
  "t233 = t212 ** t231";
  "t234 = lax_cond(t212 <= p_a_zeta_threshold, t232, t233)";
  "t235 = 0.1e1 - t211";
  "t237 = t235 ** t231";
  "t238 = lax_cond(t235 <= p_a_zeta_threshold, t232, t237)";
  "t240 = 2 ** t231";
  "t243 = (t234 + t238 - 0.2e1) / (t240 - 0.2e1)";
  "t248 = 2 ** (0.1e1 / 0.3e1)";
  "t252 = t248 ** 2";
  "t254 = t19 * t27 * t252";
  "t257 = math.tanh(t14 * t254 / 0.6e1)";
  "t260 = t42 * t43 * t252";
  "t261 = t39 * t260";
  "t265 = t66 * t67 * t248";
  "t266 = t62 * t265";
  "t280 = math.sqrt(t82 * t84 * t26 * t248)";
  "t283 = math.tanh(0.3e1 / t280)";
  "t287 = t36 * t38";
  "t293 = t59 * t61";
  "t322 = math.exp(-params_a_c_1_[2] * t9 * t11 * t13 * t254 / 0.6e1)";
  "t337 = params_a_e_1_[0] + params_a_e_1_[1] * t9 * t287 * t260 / 0.27e2 + 0.2e1 / 0.81e2 * params_a_e_1_[2] * t5 * t293 * t265";
  "t349 = 0.1e1 / (0.1e1 + params_a_e_1_[3] * t9 * t287 * t260 / 0.27e2 + 0.2e1 / 0.81e2 * params_a_e_1_[4] * t5 * t293 * t265)";
  "res = -(t1 * t3 * t5 * t8 * t31 * (0.750e0 + 0.45090814814814814815e0 * t45 - 0.82017777777777777776e-1 * t55 + 0.33649382716049382717e0 * t69) / (0.1e1 + 0.12311866666666666667e1 * t45 + 0.10094814814814814815e1 * t69) / 0.4e1 + t91 * (params_a_b_0_[0] + 0.4e1 / 0.27e2 * params_a_b_0_[1] * t9 * t36 * t98 + 0.16e2 / 0.81e2 * params_a_b_0_[2] * t5 * t59 * t106) / (0.1e1 + 0.4e1 / 0.27e2 * params_a_b_0_[3] * t9 * t36 * t98 + 0.16e2 / 0.81e2 * params_a_b_0_[4] * t5 * t59 * t106) * t127 / 0.2e1 + (params_a_c_0_[1] * t141 + params_a_c_0_[0]) * t31 * t156 * t168 * t126 / 0.4e1) * t63 * t8 * t2 * t17 / (0.1e1 + t91 * (params_a_d_0_[0] + 0.4e1 / 0.27e2 * params_a_d_0_[1] * t9 * t36 * t98 + 0.16e2 / 0.81e2 * params_a_d_0_[2] * t5 * t59 * t106) / (0.1e1 + 0.4e1 / 0.27e2 * params_a_d_0_[3] * t9 * t36 * t98 + 0.16e2 / 0.81e2 * params_a_d_0_[4] * t5 * t59 * t106) * t127 / 0.2e1 + t31 * t156 * t168 * t126 / 0.4e1) * (0.1e1 - t243) / 0.3e1 - (t248 * t1 * t3 * t5 * t8 * t257 * (0.750e0 + 0.11272703703703703704e0 * t261 - 0.20504444444444444444e-1 * t55 + 0.42061728395061728396e-1 * t266) / (0.1e1 + 0.30779666666666666667e0 * t261 + 0.12618518518518518519e0 * t266) / 0.4e1 + t283 * (params_a_b_1_[0] + params_a_b_1_[1] * t9 * t287 * t260 / 0.27e2 + 0.2e1 / 0.81e2 * params_a_b_1_[2] * t5 * t293 * t265) / (0.1e1 + params_a_b_1_[3] * t9 * t287 * t260 / 0.27e2 + 0.2e1 / 0.81e2 * params_a_b_1_[4] * t5 * t293 * t265) * t127 / 0.2e1 + (params_a_c_1_[1] * t322 + params_a_c_1_[0]) * t257 * t337 * t349 * t126 / 0.4e1) * t63 * t8 * t2 * t17 / (0.1e1 + t283 * (params_a_d_1_[0] + params_a_d_1_[1] * t9 * t287 * t260 / 0.27e2 + 0.2e1 / 0.81e2 * params_a_d_1_[2] * t5 * t293 * t265) / (0.1e1 + params_a_d_1_[3] * t9 * t287 * t260 / 0.27e2 + 0.2e1 / 0.81e2 * params_a_d_1_[4] * t5 * t293 * t265) * t127 / 0.2e1 + t257 * t337 * t349 * t126 / 0.4e1) * t243 / 0.3e1"]%b.

(* gen_repo/impl/prebuilt/unpol/lda_xc_ksdt.py *)
Definition unpol_lda_xc_ksdt : list bstr := [
  "t1 = 0.1e1 / math.pi";
  "t2 = 4 ** (0.1e1 / 0.3e1)";
  "t3 = t2 ** 2";
  "t5 = 9 ** (0.1e1 / 0.3e1)";
  "t7 = t1 ** (0.1e1 / 0.3e1)";
  "t8 = 0.1e1 / t7";
  "t9 = t5 ** 2";
  "t10 = t7 * t1";
  "t11 = 0.1e1 / t10";
  "t12 = t9 * t11";
  "t13 = 0.1e1 / params_a_T";
  "t14 = 3 ** (0.1e1 / 0.3e1)";
  "t15 = t13 * t14";
  "t16 = r0 ** (0.1e1 / 0.3e1)";
  "t17 = t16 ** 2";
  "t18 = t15 * t17";
  "t21 = math.tanh(t12 * t18 / 0.6e1)";
  "t23 = math.pi ** 2";
  "t25 = t7 ** 2";
  "t26 = t25 / t23";
  "t27 = t9 * t26";
  "t28 = params_a_T ** 2";
  "t29 = t28 * t14";
  "t31 = 0.1e1 / t16 / r0";
  "t32 = t29 * t31";
  "t33 = t27 * t32";
  "t35 = t23 ** 2";
  "t39 = r0 ** 2";
  "t41 = 0.1e1 / t35 * t28 * params_a_T / t39";
  "t45 = t7 / t35 / math.pi";
  "t46 = t5 * t45";
  "t47 = t28 ** 2";
  "t48 = t14 ** 2";
  "t49 = t47 * t48";
  "t51 = 0.1e1 / t17 / t39";
  "t52 = t49 * t51";
  "t53 = t46 * t52";
  "t64 = math.sqrt(0.2e1)";
  "t65 = t5 * t10";
  "t67 = 0.1e1 / t17";
  "t70 = math.sqrt(t65 * params_a_T * t48 * t67)";
  "t74 = math.tanh(0.3e1 / 0.2e1 * t64 / t70)";
  "t103 = t14 * t7 * t3 / t16";
  "t104 = math.sqrt(t103)";
  "t115 = math.exp(-params_a_c_0_[2] * t9 * t11 * t18 / 0.6e1)";
  "t130 = params_a_e_0_[0] + 0.4e1 / 0.27e2 * params_a_e_0_[1] * t9 * t26 * t32 + 0.16e2 / 0.81e2 * params_a_e_0_[2] * t5 * t45 * t52";
  "t142 = 0.1e1 / (0.1e1 + 0.4e1 / 0.27e2 * params_a_e_0_[3] * t9 * t26 * t32 + 0.16e2 / 0.81e2 * params_a_e_0_[4] * t5 * t45 * t52)";
  "t192 = t65 * params_a_T";
  "t193 = t48 * t67";
  "t201 = math.exp(-0.2e1 / 0.9e1 * t192 * t193 * (0.1064009e1 + 0.63618333333333333335e-1 * t192 * t193 * t104))";
  "t203 = 0.2e1 - (0.2e1 / 0.3e1 - 0.34815250000000000000e-2 * t103) / (0.1e1 + 0.45802000000000000000e-1 * t103) * t201";
  "t204 = p_a_zeta_threshold ** t203";
  "t205 = lax_cond(0.1e1 <= p_a_zeta_threshold, t204, 1)";
  "t208 = 2 ** t203";
  "t211 = (0.2e1 * t205 - 0.2e1) / (t208 - 0.2e1)";
  "t216 = 2 ** (0.1e1 / 0.3e1)";
  "t222 = t216 ** 2";
  "t226 = math.tanh(t12 * t13 * t14 * t17 * t222 / 0.6e1)";
  "t231 = t27 * t28 * t14 * t31 * t222";
  "t237 = t46 * t47 * t48 * t51 * t216";
  "t250 = math.sqrt(t192 * t193 * t216)";
  "t253 = math.tanh(0.3e1 / t250)";
  "t259 = t29 * t31 * t222";
  "t266 = t49 * t51 * t216";
  "t295 = math.exp(-params_a_c_1_[2] * t9 * t11 * t15 * t17 * t222 / 0.6e1)";
  "t310 = params_a_e_1_[0] + params_a_e_1_[1] * t9 * t26 * t259 / 0.27e2 + 0.2e1 / 0.81e2 * params_a_e_1_[2] * t5 * t45 * t266";
  "t322 = 0.1e1 / (0.1e1 + params_a_e_1_[3] * t9 * t26 * t259 / 0.27e2 + 0.2e1 / 0.81e2 * params_a_e_1_[4] * t5 * t45 * t266)";
  "res = -(t1 * t3 * t5 * t8 * t21 * (0.750e0 + 0.45090814814814814815e0 * t33 - 0.82017777777777777776e-1 * t41 + 0.33649382716049382717e0 * t53) / (0.1e1 + 0.12311866666666666667e1 * t33 + 0.10094814814814814815e1 * t53) / 0.4e1 + t74 * (params_a_b_0_[0] + 0.4e1 / 0.27e2 * params_a_b_0_[1] * t9 * t26 * t32 + 0.16e2 / 0.81e2 * params_a_b_0_[2] * t5 * t45 * t52) / (0.1e1 + 0.4e1 / 0.27e2 * params_a_b_0_[3] * t9 * t26 * t32 + 0.16e2 / 0.81e2 * params_a_b_0_[4] * t5 * t45 * t52) * t104 / 0.2e1 + (params_a_c_0_[1] * t115 + params_a_c_0_[0]) * t21 * t130 * t142 * t103 / 0.4e1) * t48 * t8 * t2 * t16 / (0.1e1 + t74 * (params_a_d_0_[0] + 0.4e1 / 0.27e2 * params_a_d_0_[1] * t9 * t26 * t32 + 0.16e2 / 0.81e2 * params_a_d_0_[2] * t5 * t45 * t52) / (0.1e1 + 0.4e1 / 0.27e2 * params_a_d_0_[3] * t9 * t26 * t32 + 0.16e2 / 0.81e2 * params_a_d_0_[4] * t5 * t45 * t52) * t104 / 0.2e1 + t21 * t130 * t142 * t103 / 0.4e1) * (0.1e1 - t211) / 0.3e1 - (t216 * t1 * t3 * t5 * t8 * t226 * (0.750e0 + 0.11272703703703703704e0 * t231 - 0.20504444444444444444e-1 * t41 + 0.42061728395061728396e-1 * t237) / (0.1e1 + 0.30779666666666666667e0 * t231 + 0.12618518518518518519e0 * t237) / 0.4e1 + t253 * (params_a_b_1_[0] + params_a_b_1_[1] * t9 * t26 * t259 / 0.27e2 + 0.2e1 / 0.81e2 * params_a_b_1_[2] * t5 * t45 * t266) / (0.1e1 + params_a_b_1_[3] * t9 * t26 * t259 / 0.27e2 + 0.2e1 / 0.81e2 * params_a_b_1_[4] * t5 * t45 * t266) * t104 / 0.2e1 + (params_a_c_1_[1] * t295 + params_a_c_1_[0]) * t226 * t310 * t322 * t103 / 0.4e1) * t48 * t8 * t2 * t16 / (0.1e1 + t253 * (params_a_d_1_[0] + params_a_d_1_[1] * t9 * t26 * t259 / 0.27e2 + 0.2e1 / 0.81e2 * params_a_d_1_[2] * t5 * t45 * t266) / (0.1e1 + params_a_d_1_[3] * t9 * t26 * t259 / 0.27e2 + 0.2e1 / 0.81e2 * params_a_d_1_[4] * t5 * t45 * t266) * t104 / 0.2e1 + t226 * t310 * t322 * t103 / 0.4e1) * t211 / 0.3e1"]%b.

(* gen_repo/impl/prebuilt/pol/lda_xc_teter93.py *)
Definition pol_lda_xc_teter93 : list bstr := [
  "t2 = r0 + r1";
  "t3 = 0.1e1 / t2";
  "t4 = (r0 - r1) * t3";
  "t5 = 0.1e1 + t4";
  "t7 = p_a_zeta_threshold ** (0.1e1 / 0.3e1)";
  "t8 = t7 * p_a_zeta_threshold";
  "t9 = t5 ** (0.1e1 / 0.3e1)";
  "t11 = lax_cond(t5 <= p_a_zeta_threshold, t8, t9 * t5)";
  "t12 = 0.1e1 - t4";
  "t14 = t12 ** (0.1e1 / 0.3e1)";
  "t16 = lax_cond(t12 <= p_a_zeta_threshold, t8, t14 * t12)";
  "t18 = 2 ** (0.1e1 / 0.3e1)";
  "t22 = (t11 + t16 - 0.2e1) / (0.2e1 * t18 - 0.2e1)";
  "t26 = 3 ** (0.1e1 / 0.3e1)";
  "t28 = 0.1e1 / math.pi";
  "t29 = t28 ** (0.1e1 / 0.3e1)";
  "t30 = 4 ** (0.1e1 / 0.3e1)";
  "t31 = t30 ** 2";
  "t33 = t2 ** (0.1e1 / 0.3e1)";
  "t34 = 0.1e1 / t33";
  "t40 = t26 ** 2";
  "t42 = t29 ** 2";
  "t44 = t33 ** 2";
  "t46 = t42 * t30 / t44";
  "res = -(0.4581652932831429e0 + 0.119086804055547e0 * t22 + (0.2217058676663745e1 + 0.6157402568883345e0 * t22) * t26 * t29 * t31 * t34 / 0.4e1 + (0.7405551735357053e0 + 0.1574201515892867e0 * t22) * t40 * t46 / 0.4e1 + 0.3e1 / 0.4e1 * (0.1968227878617998e-1 + 0.3532336663397157e-2 * t22) * t28 * t3) / (0.25000000000000000000e0 * t26 * t29 * t31 * t34 + (0.4504130959426697e1 + 0.2673612973836267e0 * t22) * t40 * t46 / 0.4e1 + 0.3e1 / 0.4e1 * (0.1110667363742916e1 + 0.2052004607777787e0 * t22) * t28 * t3 + 0.3e1 / 0.16e2 * (0.2359291751427506e-1 + 0.4200005045691381e-2 * t22) * t26 * t29 * t28 * t31 / t33 / t2)"]%b.

(* gen_repo/impl/prebuilt/unpol/lda_xc_teter93.py *)
Definition unpol_lda_xc_teter93 : list bstr := [
  "t2 = p_a_zeta_threshold ** (0.1e1 / 0.3e1)";
  "t4 = lax_cond(0.1e1 <= p_a_zeta_threshold, t2 * p_a_zeta_threshold, 1)";
  "t7 = 2 ** (0.1e1 / 0.3e1)";
  "t11 = (0.2e1 * t4 - 0.2e1) / (0.2e1 * t7 - 0.2e1)";
  "t15 = 3 ** (0.1e1 / 0.3e1)";
  "t17 = 0.1e1 / math.pi";
  "t18 = t17 ** (0.1e1 / 0.3e1)";
  "t19 = 4 ** (0.1e1 / 0.3e1)";
  "t20 = t19 ** 2";
  "t22 = r0 ** (0.1e1 / 0.3e1)";
  "t23 = 0.1e1 / t22";
  "t29 = t15 ** 2";
  "t31 = t18 ** 2";
  "t33 = t22 ** 2";
  "t35 = t31 * t19 / t33";
  "t41 = 0.1e1 / r0";
  "res = -(0.4581652932831429e0 + 0.119086804055547e0 * t11 + (0.2217058676663745e1 + 0.6157402568883345e0 * t11) * t15 * t18 * t20 * t23 / 0.4e1 + (0.7405551735357053e0 + 0.1574201515892867e0 * t11) * t29 * t35 / 0.4e1 + 0.3e1 / 0.4e1 * (0.1968227878617998e-1 + 0.3532336663397157e-2 * t11) * t17 * t41) / (0.25000000000000000000e0 * t15 * t18 * t20 * t23 + (0.4504130959426697e1 + 0.2673612973836267e0 * t11) * t29 * t35 / 0.4e1 + 0.3e1 / 0.4e1 * (0.1110667363742916e1 + 0.2052004607777787e0 * t11) * t17 * t41 + 0.3e1 / 0.16e2 * (0.2359291751427506e-1 + 0.4200005045691381e-2 * t11) * t15 * t18 * t17 * t20 / t22 / r0)"]%b.

(* gen_repo/impl/prebuilt/pol/lda_xc_tih.py *)
Definition pol_lda_xc_tih : list bstr := [
  "t4 = math.tanh(0.10953e1 + 0.334789e-1 * r0 + 0.334789e-1 * r1)";
  "t9 = math.tanh(-0.414661e0 + 0.152399e0 * r0 + 0.152399e0 * r1)";
  "t14 = math.tanh(-0.354691e0 + 0.390837e-1 * r0 + 0.390837e-1 * r1)";
  "t19 = math.tanh(0.748531e-1 + 0.136598e0 * r0 + 0.136598e0 * r1)";
  "t24 = math.tanh(-0.141063e1 + 0.496577e-2 * r0 + 0.496577e-2 * r1)";
  "t29 = math.tanh(0.48315e0 + 0.402905e1 * r0 + 0.402905e1 * r1)";
  "t34 = math.tanh(-0.420166e0 + 0.104352e-1 * r0 + 0.104352e-1 * r1)";
  "t39 = math.tanh(0.147409e1 + 0.442455e0 * r0 + 0.442455e0 * r1)";
  "res = 0.625039e0 - 0.130351e1 * t4 - 0.137026e1 * t9 - 0.129598e1 * t14 + 0.104305e1 * t19 - 0.909651e0 * t24 - 0.991782e0 * t29 - 0.915745e0 * t34 - 0.195026e1 * t39"]%b.

(* gen_repo/impl/prebuilt/unpol/lda_xc_tih.py *)
Definition unpol_lda_xc_tih : list bstr := [
  "t3 = math.tanh(0.10953e1 + 0.334789e-1 * r0)";
  "t7 = math.tanh(-0.414661e0 + 0.152399e0 * r0)";
  "t11 = math.tanh(-0.354691e0 + 0.390837e-1 * r0)";
  "t15 = math.tanh(0.748531e-1 + 0.136598e0 * r0)";
  "t19 = math.tanh(-0.141063e1 + 0.496577e-2 * r0)";
  "t23 = math.tanh(0.48315e0 + 0.402905e1 * r0)";
  "t27 = math.tanh(-0.420166e0 + 0.104352e-1 * r0)";
  "t31 = math.tanh(0.147409e1 + 0.442455e0 * r0)";
  "res = 0.625039e0 - 0.130351e1 * t3 - 0.137026e1 * t7 - 0.129598e1 * t11 + 0.104305e1 * t15 - 0.909651e0 * t19 - 0.991782e0 * t23 - 0.915745e0 * t27 - 0.195026e1 * t31"]%b.

(* gen_repo/impl/prebuilt/pol/lda_xc_zlp.py *)
Definition pol_lda_xc_zlp : list bstr := [
  "t2 = (r0 + r1) ** (0.1e1 / 0.3e1)";
  "t6 = math.log(0.1e1 + 0.10555627099250339363e3 / t2)";
  "res = -0.93222000000000000000e0 * (0.1e1 - 0.94736200000000000000e-2 * t6 * t2) * t2"]%b.

(* gen_repo/impl/prebuilt/unpol/lda_xc_zlp.py *)
Definition unpol_lda_xc_zlp : list bstr := [
  "t1 = r0 ** (0.1e1 / 0.3e1)";
  "t5 = math.log(0.1e1 + 0.10555627099250339363e3 / t1)";
  "res = -0.93222000000000000000e0 * (0.1e1 - 0.94736200000000000000e-2 * t5 * t1) * t1"]%b.

(* gen_repo/impl/prebuilt/pol/mgga_c_b88.py *)
Definition pol_mgga_c_b88 : list bstr := [
  "t1 = r0 - r1";
  "t2 = t1 ** 2";
  "t3 = r0 + r1";
  "t4 = t3 ** 2";
  "t9 = r0 <= p_a_dens_threshold";
  "t10 = 3 ** (0.1e1 / 0.3e1)";
  "t11 = t10 ** 2";
  "t12 = 0.1e1 / math.pi";
  "t13 = t12 ** (0.1e1 / 0.3e1)";
  "t16 = 4 ** (0.1e1 / 0.3e1)";
  "t17 = t11 / t13 * t16";
  "t18 = 2 ** (0.1e1 / 0.3e1)";
  "t19 = 0.1e1 / t3";
  "t22 = 0.2e1 * r0 * t19 <= p_a_zeta_threshold";
  "t23 = p_a_zeta_threshold - 0.1e1";
  "t26 = 0.2e1 * r1 * t19 <= p_a_zeta_threshold";
  "t27 = -t23";
  "t28 = t1 * t19";
  "t29 = lax_cond(t26, t27, t28)";
  "t30 = lax_cond(t22, t23, t29)";
  "t32 = (0.1e1 + t30) * t3";
  "t33 = t32 ** (0.1e1 / 0.3e1)";
  "t36 = r0 ** 2";
  "t37 = r0 ** (0.1e1 / 0.3e1)";
  "t38 = t37 ** 2";
  "t41 = s0 / t38 / t36";
  "t44 = (0.1e1 + 0.7e-2 * t41) ** (0.1e1 / 0.5e1)";
  "t45 = t44 ** 2";
  "t46 = t45 ** 2";
  "t51 = 0.1e1 + 0.83333333333333333333e-3 * t17 * t41 / t46";
  "t54 = t17 * t18 / t33 / t51";
  "t56 = lax_cond(t9, 0, t54 / 0.9e1)";
  "t57 = 0.63e0 * t56";
  "t58 = r1 <= p_a_dens_threshold";
  "t59 = lax_cond(t22, t27, -t28)";
  "t60 = lax_cond(t26, t23, t59)";
  "t62 = (0.1e1 + t60) * t3";
  "t63 = t62 ** (0.1e1 / 0.3e1)";
  "t66 = r1 ** 2";
  "t67 = r1 ** (0.1e1 / 0.3e1)";
  "t68 = t67 ** 2";
  "t71 = s2 / t68 / t66";
  "t74 = (0.1e1 + 0.7e-2 * t71) ** (0.1e1 / 0.5e1)";
  "t75 = t74 ** 2";
  "t76 = t75 ** 2";
  "t81 = 0.1e1 + 0.83333333333333333333e-3 * t17 * t71 / t76";
  "t84 = t17 * t18 / t63 / t81";
  "t86 = lax_cond(t58, 0, t84 / 0.9e1)";
  "t87 = 0.63e0 * t86";
  "t90 = math.log(0.1e1 + t57 + t87)";
  "t96 = 0.1e1 + t28 <= p_a_zeta_threshold";
  "t98 = 0.1e1 - t28 <= p_a_zeta_threshold";
  "t99 = lax_cond(t98, t27, t28)";
  "t100 = lax_cond(t96, t23, t99)";
  "t101 = 0.1e1 + t100";
  "t102 = t101 ** 2";
  "t103 = t101 ** (0.1e1 / 0.3e1)";
  "t104 = t103 ** 2";
  "t106 = t18 ** 2";
  "t108 = t3 ** (0.1e1 / 0.3e1)";
  "t109 = t108 ** 2";
  "t110 = t109 * t3";
  "t122 = 0.1e1 / t13 / t12 * t16";
  "t125 = t51 ** 2";
  "t126 = t125 ** 2";
  "t131 = math.log(0.1e1 + 0.10666666666666666667e0 * t54)";
  "t134 = t16 ** 2";
  "t135 = t134 * t106";
  "t145 = lax_cond(t9, 0, -0.18641351111111111112e-3 * t104 * t102 * t106 * t110 * (0.2e1 * tau0 / t38 / r0 - t41 / 0.4e1) * t11 * t122 / t33 / t32 / t126 * (0.1e1 - 0.39062500000000000000e0 * t131 * t10 * t13 * t135 * t33 * t51))";
  "t146 = lax_cond(t96, t27, -t28)";
  "t147 = lax_cond(t98, t23, t146)";
  "t148 = 0.1e1 + t147";
  "t149 = t148 ** 2";
  "t150 = t148 ** (0.1e1 / 0.3e1)";
  "t151 = t150 ** 2";
  "t165 = t81 ** 2";
  "t166 = t165 ** 2";
  "t171 = math.log(0.1e1 + 0.10666666666666666667e0 * t84)";
  "t183 = lax_cond(t58, 0, -0.18641351111111111112e-3 * t151 * t149 * t106 * t110 * (0.2e1 * tau1 / t68 / r1 - t71 / 0.4e1) * t11 * t122 / t63 / t62 / t166 * (0.1e1 - 0.39062500000000000000e0 * t171 * t10 * t13 * t135 * t63 * t81))";
  "res = -0.20000000000000000000e0 * (0.1e1 - t2 / t4) * t3 * (t57 + t87) * (t57 + t87 - t90) + t145 + t183"]%b.

(* gen_repo/impl/prebuilt/unpol/mgga_c_b88.py *)
Definition unpol_mgga_c_b88 : list bstr := [
  "t2 = r0 / 0.2e1 <= p_a_dens_threshold";
  "t3 = 3 ** (0.1e1 / 0.3e1)";
  "t4 = t3 ** 2";
  "t5 = 0.1e1 / math.pi";
  "t6 = t5 ** (0.1e1 / 0.3e1)";
  "t9 = 4 ** (0.1e1 / 0.3e1)";
  "t10 = t4 / t6 * t9";
  "t11 = 2 ** (0.1e1 / 0.3e1)";
  "t12 = 0.1e1 <= p_a_zeta_threshold";
  "t13 = p_a_zeta_threshold - 0.1e1";
  "t15 = lax_cond(t12, -t13, 0)";
  "t16 = lax_cond(t12, t13, t15)";
  "t17 = 0.1e1 + t16";
  "t18 = t17 * r0";
  "t19 = t18 ** (0.1e1 / 0.3e1)";
  "t22 = t11 ** 2";
  "t23 = s0 * t22";
  "t24 = r0 ** 2";
  "t25 = r0 ** (0.1e1 / 0.3e1)";
  "t26 = t25 ** 2";
  "t28 = 0.1e1 / t26 / t24";
  "t29 = t23 * t28";
  "t32 = (0.1e1 + 0.7e-2 * t29) ** (0.1e1 / 0.5e1)";
  "t33 = t32 ** 2";
  "t34 = t33 ** 2";
  "t40 = 0.1e1 + 0.83333333333333333333e-3 * t10 * t23 * t28 / t34";
  "t43 = t10 * t11 / t19 / t40";
  "t45 = lax_cond(t2, 0, t43 / 0.9e1)";
  "t47 = 0.126e1 * t45";
  "t49 = math.log(0.1e1 + t47)";
  "t53 = t17 ** 2";
  "t54 = t17 ** (0.1e1 / 0.3e1)";
  "t55 = t54 ** 2";
  "t58 = t26 * r0";
  "t73 = t40 ** 2";
  "t74 = t73 ** 2";
  "t79 = math.log(0.1e1 + 0.10666666666666666667e0 * t43)";
  "t82 = t9 ** 2";
  "t93 = lax_cond(t2, 0, -0.18641351111111111112e-3 * t55 * t53 * t22 * t58 * (0.2e1 * tau0 * t22 / t58 - t29 / 0.4e1) * t4 / t6 / t5 * t9 / t19 / t18 / t74 * (0.1e1 - 0.39062500000000000000e0 * t79 * t3 * t6 * t82 * t22 * t19 * t40))";
  "res = -0.25200000000000000000e0 * r0 * t45 * (t47 - t49) + 0.2e1 * t93"]%b.

(* gen_repo/impl/prebuilt/pol/mgga_c_b94.py *)
Definition pol_mgga_c_b94 : list bstr := [
  "t1 = r0 - r1";
  "t2 = t1 ** 2";
  "t3 = r0 + r1";
  "t4 = t3 ** 2";
  "t9 = r0 <= p_a_dens_threshold";
  "t10 = 2 ** (0.1e1 / 0.3e1)";
  "t11 = 0.1e1 / t3";
  "t14 = 0.2e1 * r0 * t11 <= p_a_zeta_threshold";
  "t15 = p_a_zeta_threshold - 0.1e1";
  "t18 = 0.2e1 * r1 * t11 <= p_a_zeta_threshold";
  "t19 = -t15";
  "t20 = t1 * t11";
  "t21 = lax_cond(t18, t19, t20)";
  "t22 = lax_cond(t14, t15, t21)";
  "t24 = (0.1e1 + t22) * t3";
  "t25 = t24 ** (0.1e1 / 0.3e1)";
  "t26 = 0.1e1 / t25";
  "t28 = math.pi ** (0.1e1 / 0.3e1)";
  "t29 = 0.1e1 / t28";
  "t31 = r0 ** (0.1e1 / 0.3e1)";
  "t32 = t31 ** 2";
  "t34 = 0.1e1 / t32 / r0";
  "t41 = r0 ** 2";
  "t43 = 0.1e1 / t32 / t41";
  "t46 = l0 * t34 / 0.6e1 - 0.2e1 / 0.3e1 * params_a_gamma * tau0 * t34 + params_a_gamma * s0 * t43 / 0.12e2";
  "t47 = abs(t46)";
  "t50 = lax_cond(0.0e0 < t46, 0.50e-12, -0.50e-12)";
  "t51 = lax_cond(t47 < 0.50e-12, t50, t46)";
  "t52 = br89_x(t51)";
  "t54 = math.exp(t52 / 0.3e1)";
  "t55 = 0.1e1 / t54";
  "t56 = math.exp(-t52)";
  "t60 = 0.1e1 - t56 * (0.1e1 + t52 / 0.2e1)";
  "t61 = 0.1e1 / t60";
  "t66 = lax_cond(t9, 0, t10 * t26 * t29 * t55 * t61 * t52 / 0.2e1)";
  "t67 = r1 <= p_a_dens_threshold";
  "t68 = lax_cond(t14, t19, -t20)";
  "t69 = lax_cond(t18, t15, t68)";
  "t71 = (0.1e1 + t69) * t3";
  "t72 = t71 ** (0.1e1 / 0.3e1)";
  "t73 = 0.1e1 / t72";
  "t76 = r1 ** (0.1e1 / 0.3e1)";
  "t77 = t76 ** 2";
  "t79 = 0.1e1 / t77 / r1";
  "t86 = r1 ** 2";
  "t88 = 0.1e1 / t77 / t86";
  "t91 = l1 * t79 / 0.6e1 - 0.2e1 / 0.3e1 * params_a_gamma * tau1 * t79 + params_a_gamma * s2 * t88 / 0.12e2";
  "t92 = abs(t91)";
  "t95 = lax_cond(0.0e0 < t91, 0.50e-12, -0.50e-12)";
  "t96 = lax_cond(t92 < 0.50e-12, t95, t91)";
  "t97 = br89_x(t96)";
  "t99 = math.exp(t97 / 0.3e1)";
  "t100 = 0.1e1 / t99";
  "t101 = math.exp(-t97)";
  "t105 = 0.1e1 - t101 * (0.1e1 + t97 / 0.2e1)";
  "t106 = 0.1e1 / t105";
  "t111 = lax_cond(t67, 0, t10 * t73 * t29 * t100 * t106 * t97 / 0.2e1)";
  "t113 = params_a_cab * (t66 + t111)";
  "t115 = math.log(0.1e1 + t113)";
  "t121 = 0.1e1 + t20 <= p_a_zeta_threshold";
  "t123 = 0.1e1 - t20 <= p_a_zeta_threshold";
  "t124 = lax_cond(t123, t19, t20)";
  "t125 = lax_cond(t121, t15, t124)";
  "t126 = 0.1e1 + t125";
  "t127 = t126 ** 2";
  "t128 = t126 ** (0.1e1 / 0.3e1)";
  "t129 = t128 ** 2";
  "t131 = t10 ** 2";
  "t133 = t3 ** (0.1e1 / 0.3e1)";
  "t134 = t133 ** 2";
  "t135 = t134 * t3";
  "t142 = params_a_css ** 2";
  "t143 = t142 ** 2";
  "t149 = 0.1e1 / t28 / math.pi";
  "t151 = t54 ** 2";
  "t152 = t151 ** 2";
  "t155 = t60 ** 2";
  "t156 = t155 ** 2";
  "t158 = t52 ** 2";
  "t159 = t158 ** 2";
  "t161 = params_a_css * t10";
  "t169 = math.log(0.1e1 + t161 * t26 * t29 * t55 * t61 * t52 / 0.2e1)";
  "t170 = 0.1e1 / params_a_css";
  "t184 = lax_cond(t9, 0, -0.25000000000000000000e-2 * t129 * t127 * t131 * t135 * (0.2e1 * tau0 * t34 - s0 * t43 / 0.4e1) * t143 / t25 / t24 * t149 / t152 / t156 * t159 * (0.1e1 - t169 * t170 * t131 * t25 * t28 * t54 * t60 / t52))";
  "t185 = lax_cond(t121, t19, -t20)";
  "t186 = lax_cond(t123, t15, t185)";
  "t187 = 0.1e1 + t186";
  "t188 = t187 ** 2";
  "t189 = t187 ** (0.1e1 / 0.3e1)";
  "t190 = t189 ** 2";
  "t204 = t99 ** 2";
  "t205 = t204 ** 2";
  "t208 = t105 ** 2";
  "t209 = t208 ** 2";
  "t211 = t97 ** 2";
  "t212 = t211 ** 2";
  "t221 = math.log(0.1e1 + t161 * t73 * t29 * t100 * t106 * t97 / 0.2e1)";
  "t235 = lax_cond(t67, 0, -0.25000000000000000000e-2 * t190 * t188 * t131 * t135 * (0.2e1 * tau1 * t79 - s2 * t88 / 0.4e1) * t143 / t72 / t71 * t149 / t205 / t209 * t212 * (0.1e1 - t221 * t170 * t131 * t72 * t28 * t99 * t105 / t97))";
  "res = -0.20000000000000000000e0 * (0.1e1 - t2 / t4) * t3 * t113 * (t113 - t115) + t184 + t235"]%b.

(* gen_repo/impl/prebuilt/unpol/mgga_c_b94.py *)
Definition unpol_mgga_c_b94 : list bstr := [
  "t3 = r0 / 0.2e1 <= p_a_dens_threshold";
  "t4 = 2 ** (0.1e1 / 0.3e1)";
  "t5 = 0.1e1 <= p_a_zeta_threshold";
  "t6 = p_a_zeta_threshold - 0.1e1";
  "t8 = lax_cond(t5, -t6, 0)";
  "t9 = lax_cond(t5, t6, t8)";
  "t10 = 0.1e1 + t9";
  "t11 = t10 * r0";
  "t12 = t11 ** (0.1e1 / 0.3e1)";
  "t13 = 0.1e1 / t12";
  "t15 = math.pi ** (0.1e1 / 0.3e1)";
  "t16 = 0.1e1 / t15";
  "t18 = t4 ** 2";
  "t20 = r0 ** (0.1e1 / 0.3e1)";
  "t21 = t20 ** 2";
  "t22 = t21 * r0";
  "t23 = 0.1e1 / t22";
  "t31 = r0 ** 2";
  "t33 = 0.1e1 / t21 / t31";
  "t37 = l0 * t18 * t23 / 0.6e1 - 0.2e1 / 0.3e1 * params_a_gamma * tau0 * t18 * t23 + params_a_gamma * s0 * t18 * t33 / 0.12e2";
  "t38 = abs(t37)";
  "t41 = lax_cond(0.0e0 < t37, 0.50e-12, -0.50e-12)";
  "t42 = lax_cond(t38 < 0.50e-12, t41, t37)";
  "t43 = br89_x(t42)";
  "t45 = math.exp(t43 / 0.3e1)";
  "t46 = 0.1e1 / t45";
  "t47 = math.exp(-t43)";
  "t51 = 0.1e1 - t47 * (0.1e1 + t43 / 0.2e1)";
  "t52 = 0.1e1 / t51";
  "t57 = lax_cond(t3, 0, t4 * t13 * t16 * t46 * t52 * t43 / 0.2e1)";
  "t59 = 0.2e1 * params_a_cab * t57";
  "t61 = math.log(0.1e1 + t59)";
  "t66 = t10 ** 2";
  "t67 = t10 ** (0.1e1 / 0.3e1)";
  "t68 = t67 ** 2";
  "t79 = params_a_css ** 2";
  "t80 = t79 ** 2";
  "t88 = t45 ** 2";
  "t89 = t88 ** 2";
  "t92 = t51 ** 2";
  "t93 = t92 ** 2";
  "t95 = t43 ** 2";
  "t96 = t95 ** 2";
  "t106 = math.log(0.1e1 + params_a_css * t4 * t13 * t16 * t46 * t52 * t43 / 0.2e1)";
  "t121 = lax_cond(t3, 0, -0.25000000000000000000e-2 * t68 * t66 * t18 * t22 * (0.2e1 * tau0 * t18 * t23 - s0 * t18 * t33 / 0.4e1) * t80 / t12 / t11 / t15 / math.pi / t89 / t93 * t96 * (0.1e1 - t106 / params_a_css * t18 * t12 * t15 * t45 * t51 / t43))";
  "res = -0.40000000000000000000e0 * r0 * params_a_cab * t57 * (t59 - t61) + 0.2e1 * t121"]%b.

(* gen_repo/impl/prebuilt/pol/mgga_c_bc95.py *)
Definition pol_mgga_c_bc95 : list bstr := [
  "t2 = r0 - r1";
  "t3 = r0 + r1";
  "t5 = t2 / t3";
  "t6 = 0.1e1 + t5";
  "t7 = t6 <= p_a_zeta_threshold";
  "t8 = jnp.logical_or(r0 <= p_a_dens_threshold, t7)";
  "t9 = lax_cond(t7, p_a_zeta_threshold, t6)";
  "t10 = 3 ** (0.1e1 / 0.3e1)";
  "t12 = (0.1e1 / math.pi) ** (0.1e1 / 0.3e1)";
  "t13 = t10 * t12";
  "t14 = 4 ** (0.1e1 / 0.3e1)";
  "t15 = t14 ** 2";
  "t16 = t13 * t15";
  "t17 = t3 ** (0.1e1 / 0.3e1)";
  "t18 = 0.1e1 / t17";
  "t19 = 2 ** (0.1e1 / 0.3e1)";
  "t20 = t18 * t19";
  "t21 = p_a_zeta_threshold ** (0.1e1 / 0.3e1)";
  "t22 = 0.1e1 / t21";
  "t23 = t6 ** (0.1e1 / 0.3e1)";
  "t25 = lax_cond(t7, t22, 0.1e1 / t23)";
  "t27 = t16 * t20 * t25";
  "t30 = math.sqrt(t27)";
  "t33 = t27 ** 0.15e1";
  "t35 = t10 ** 2";
  "t36 = t12 ** 2";
  "t37 = t35 * t36";
  "t38 = t37 * t14";
  "t39 = t17 ** 2";
  "t40 = 0.1e1 / t39";
  "t41 = t19 ** 2";
  "t42 = t40 * t41";
  "t43 = t25 ** 2";
  "t45 = t38 * t42 * t43";
  "t51 = math.log(0.1e1 + 0.16081979498692535067e2 / (0.37978500000000000000e1 * t30 + 0.89690000000000000000e0 * t27 + 0.20477500000000000000e0 * t33 + 0.12323500000000000000e0 * t45))";
  "t53 = 0.621814e-1 * (0.1e1 + 0.53425000000000000000e-1 * t27) * t51";
  "t55 = t21 * p_a_zeta_threshold";
  "t57 = lax_cond(0.2e1 <= p_a_zeta_threshold, t55, 0.2e1 * t19)";
  "t59 = lax_cond(0.0e0 <= p_a_zeta_threshold, t55, 0)";
  "t63 = 0.1e1 / (0.2e1 * t19 - 0.2e1)";
  "t64 = (t57 + t59 - 0.2e1) * t63";
  "t75 = math.log(0.1e1 + 0.32163958997385070134e2 / (0.70594500000000000000e1 * t30 + 0.15494250000000000000e1 * t27 + 0.42077500000000000000e0 * t33 + 0.15629250000000000000e0 * t45))";
  "t88 = math.log(0.1e1 + 0.29608749977793437516e2 / (0.51785000000000000000e1 * t30 + 0.90577500000000000000e0 * t27 + 0.11003250000000000000e0 * t33 + 0.12417750000000000000e0 * t45))";
  "t89 = (0.1e1 + 0.27812500000000000000e-1 * t27) * t88";
  "t98 = lax_cond(t8, 0, t9 * (-t53 + t64 * (-0.3109070e-1 * (0.1e1 + 0.51370000000000000000e-1 * t27) * t75 + t53 - 0.19751673498613801407e-1 * t89) + 0.19751673498613801407e-1 * t64 * t89) / 0.2e1)";
  "t100 = r0 ** (0.1e1 / 0.3e1)";
  "t101 = t100 ** 2";
  "t111 = 6 ** (0.1e1 / 0.3e1)";
  "t113 = math.pi ** 2";
  "t114 = t113 ** (0.1e1 / 0.3e1)";
  "t115 = t114 ** 2";
  "t116 = 0.1e1 / t115";
  "t118 = r0 ** 2";
  "t120 = 0.1e1 / t101 / t118";
  "t123 = (params_a_css * s0 * t120 + 0.1e1) ** 2";
  "t130 = 0.1e1 - t5";
  "t131 = t130 <= p_a_zeta_threshold";
  "t132 = jnp.logical_or(r1 <= p_a_dens_threshold, t131)";
  "t133 = lax_cond(t131, p_a_zeta_threshold, t130)";
  "t134 = t130 ** (0.1e1 / 0.3e1)";
  "t136 = lax_cond(t131, t22, 0.1e1 / t134)";
  "t138 = t16 * t20 * t136";
  "t141 = math.sqrt(t138)";
  "t144 = t138 ** 0.15e1";
  "t146 = t136 ** 2";
  "t148 = t38 * t42 * t146";
  "t154 = math.log(0.1e1 + 0.16081979498692535067e2 / (0.37978500000000000000e1 * t141 + 0.89690000000000000000e0 * t138 + 0.20477500000000000000e0 * t144 + 0.12323500000000000000e0 * t148))";
  "t156 = 0.621814e-1 * (0.1e1 + 0.53425000000000000000e-1 * t138) * t154";
  "t167 = math.log(0.1e1 + 0.32163958997385070134e2 / (0.70594500000000000000e1 * t141 + 0.15494250000000000000e1 * t138 + 0.42077500000000000000e0 * t144 + 0.15629250000000000000e0 * t148))";
  "t180 = math.log(0.1e1 + 0.29608749977793437516e2 / (0.51785000000000000000e1 * t141 + 0.90577500000000000000e0 * t138 + 0.11003250000000000000e0 * t144 + 0.12417750000000000000e0 * t148))";
  "t181 = (0.1e1 + 0.27812500000000000000e-1 * t138) * t180";
  "t190 = lax_cond(t132, 0, t133 * (-t156 + t64 * (-0.3109070e-1 * (0.1e1 + 0.51370000000000000000e-1 * t138) * t167 + t156 - 0.19751673498613801407e-1 * t181) + 0.19751673498613801407e-1 * t64 * t181) / 0.2e1)";
  "t192 = r1 ** (0.1e1 / 0.3e1)";
  "t193 = t192 ** 2";
  "t205 = r1 ** 2";
  "t207 = 0.1e1 / t193 / t205";
  "t210 = (params_a_css * s2 * t207 + 0.1e1) ** 2";
  "t217 = t13 * t15 * t18";
  "t220 = math.sqrt(t217)";
  "t223 = t217 ** 0.15e1";
  "t226 = t37 * t14 * t40";
  "t232 = math.log(0.1e1 + 0.16081979498692535067e2 / (0.37978500000000000000e1 * t220 + 0.89690000000000000000e0 * t217 + 0.20477500000000000000e0 * t223 + 0.12323500000000000000e0 * t226))";
  "t234 = 0.621814e-1 * (0.1e1 + 0.53425000000000000000e-1 * t217) * t232";
  "t235 = t2 ** 2";
  "t236 = t235 ** 2";
  "t237 = t3 ** 2";
  "t238 = t237 ** 2";
  "t242 = lax_cond(t7, t55, t23 * t6)";
  "t244 = lax_cond(t131, t55, t134 * t130)";
  "t246 = (t242 + t244 - 0.2e1) * t63";
  "t257 = math.log(0.1e1 + 0.32163958997385070134e2 / (0.70594500000000000000e1 * t220 + 0.15494250000000000000e1 * t217 + 0.42077500000000000000e0 * t223 + 0.15629250000000000000e0 * t226))";
  "t270 = math.log(0.1e1 + 0.29608749977793437516e2 / (0.51785000000000000000e1 * t220 + 0.90577500000000000000e0 * t217 + 0.11003250000000000000e0 * t223 + 0.12417750000000000000e0 * t226))";
  "t271 = (0.1e1 + 0.27812500000000000000e-1 * t217) * t270";
  "res = 0.5e1 / 0.9e1 * t98 * tau0 / t101 / r0 * (0.1e1 - s0 / r0 / tau0 / 0.8e1) * t111 * t116 / t123 + 0.5e1 / 0.9e1 * t190 * tau1 / t193 / r1 * (0.1e1 - s2 / r1 / tau1 / 0.8e1) * t111 * t116 / t210 + (-t234 + t236 / t238 * t246 * (-0.3109070e-1 * (0.1e1 + 0.51370000000000000000e-1 * t217) * t257 + t234 - 0.19751673498613801407e-1 * t271) + 0.19751673498613801407e-1 * t246 * t271 - t98 - t190) / (0.1e1 + params_a_copp * (s0 * t120 + s2 * t207))"]%b.

(* gen_repo/impl/prebuilt/unpol/mgga_c_bc95.py *)
Definition unpol_mgga_c_bc95 : list bstr := [
  "t3 = 0.1e1 <= p_a_zeta_threshold";
  "t4 = jnp.logical_or(r0 / 0.2e1 <= p_a_dens_threshold, t3)";
  "t5 = lax_cond(t3, p_a_zeta_threshold, 1)";
  "t6 = 3 ** (0.1e1 / 0.3e1)";
  "t8 = (0.1e1 / math.pi) ** (0.1e1 / 0.3e1)";
  "t9 = t6 * t8";
  "t10 = 4 ** (0.1e1 / 0.3e1)";
  "t11 = t10 ** 2";
  "t13 = r0 ** (0.1e1 / 0.3e1)";
  "t14 = 0.1e1 / t13";
  "t15 = 2 ** (0.1e1 / 0.3e1)";
  "t17 = p_a_zeta_threshold ** (0.1e1 / 0.3e1)";
  "t19 = lax_cond(t3, 0.1e1 / t17, 1)";
  "t21 = t9 * t11 * t14 * t15 * t19";
  "t24 = math.sqrt(t21)";
  "t27 = t21 ** 0.15e1";
  "t29 = t6 ** 2";
  "t30 = t8 ** 2";
  "t31 = t29 * t30";
  "t33 = t13 ** 2";
  "t34 = 0.1e1 / t33";
  "t35 = t15 ** 2";
  "t37 = t19 ** 2";
  "t39 = t31 * t10 * t34 * t35 * t37";
  "t45 = math.log(0.1e1 + 0.16081979498692535067e2 / (0.37978500000000000000e1 * t24 + 0.89690000000000000000e0 * t21 + 0.20477500000000000000e0 * t27 + 0.12323500000000000000e0 * t39))";
  "t47 = 0.621814e-1 * (0.1e1 + 0.53425000000000000000e-1 * t21) * t45";
  "t49 = t17 * p_a_zeta_threshold";
  "t51 = lax_cond(0.2e1 <= p_a_zeta_threshold, t49, 0.2e1 * t15)";
  "t53 = lax_cond(0.0e0 <= p_a_zeta_threshold, t49, 0)";
  "t57 = 0.1e1 / (0.2e1 * t15 - 0.2e1)";
  "t58 = (t51 + t53 - 0.2e1) * t57";
  "t69 = math.log(0.1e1 + 0.32163958997385070134e2 / (0.70594500000000000000e1 * t24 + 0.15494250000000000000e1 * t21 + 0.42077500000000000000e0 * t27 + 0.15629250000000000000e0 * t39))";
  "t82 = math.log(0.1e1 + 0.29608749977793437516e2 / (0.51785000000000000000e1 * t24 + 0.90577500000000000000e0 * t21 + 0.11003250000000000000e0 * t27 + 0.12417750000000000000e0 * t39))";
  "t83 = (0.1e1 + 0.27812500000000000000e-1 * t21) * t82";
  "t92 = lax_cond(t4, 0, t5 * (-t47 + t58 * (-0.3109070e-1 * (0.1e1 + 0.51370000000000000000e-1 * t21) * t69 + t47 - 0.19751673498613801407e-1 * t83) + 0.19751673498613801407e-1 * t58 * t83) / 0.2e1)";
  "t104 = 6 ** (0.1e1 / 0.3e1)";
  "t106 = math.pi ** 2";
  "t107 = t106 ** (0.1e1 / 0.3e1)";
  "t108 = t107 ** 2";
  "t111 = r0 ** 2";
  "t114 = t35 / t33 / t111";
  "t117 = (params_a_css * s0 * t114 + 0.1e1) ** 2";
  "t124 = t9 * t11 * t14";
  "t127 = math.sqrt(t124)";
  "t130 = t124 ** 0.15e1";
  "t133 = t31 * t10 * t34";
  "t139 = math.log(0.1e1 + 0.16081979498692535067e2 / (0.37978500000000000000e1 * t127 + 0.89690000000000000000e0 * t124 + 0.20477500000000000000e0 * t130 + 0.12323500000000000000e0 * t133))";
  "t142 = lax_cond(t3, t49, 1)";
  "t156 = math.log(0.1e1 + 0.29608749977793437516e2 / (0.51785000000000000000e1 * t127 + 0.90577500000000000000e0 * t124 + 0.11003250000000000000e0 * t130 + 0.12417750000000000000e0 * t133))";
  "res = 0.10e2 / 0.9e1 * t92 * tau0 * t35 / t33 / r0 * (0.1e1 - s0 / r0 / tau0 / 0.8e1) * t104 / t108 / t117 + (-0.621814e-1 * (0.1e1 + 0.53425000000000000000e-1 * t124) * t139 + 0.19751673498613801407e-1 * (0.2e1 * t142 - 0.2e1) * t57 * (0.1e1 + 0.27812500000000000000e-1 * t124) * t156 - 0.2e1 * t92) / (0.2e1 * params_a_copp * s0 * t114 + 0.1e1)"]%b.

(* gen_repo/impl/prebuilt/pol/mgga_c_cc.py *)
Definition pol_mgga_c_cc : list bstr := [
  "t3 = r0 + r1";
  "t4 = t3 ** 2";
  "t5 = t4 ** 2";
  "t6 = t3 ** (0.1e1 / 0.3e1)";
  "t7 = t6 ** 2";
  "t11 = r0 ** (0.1e1 / 0.3e1)";
  "t12 = t11 ** 2";
  "t16 = r0 - r1";
  "t18 = t16 / t3";
  "t19 = 0.1e1 + t18";
  "t20 = t19 / 0.2e1";
  "t21 = t20 ** (0.1e1 / 0.3e1)";
  "t22 = t21 ** 2";
  "t25 = r1 ** (0.1e1 / 0.3e1)";
  "t26 = t25 ** 2";
  "t30 = 0.1e1 - t18";
  "t31 = t30 / 0.2e1";
  "t32 = t31 ** (0.1e1 / 0.3e1)";
  "t33 = t32 ** 2";
  "t38 = t16 ** 2";
  "t43 = 3 ** (0.1e1 / 0.3e1)";
  "t45 = (0.1e1 / math.pi) ** (0.1e1 / 0.3e1)";
  "t47 = 4 ** (0.1e1 / 0.3e1)";
  "t48 = t47 ** 2";
  "t51 = t43 * t45 * t48 / t6";
  "t54 = math.sqrt(t51)";
  "t57 = t51 ** 0.15e1";
  "t59 = t43 ** 2";
  "t60 = t45 ** 2";
  "t64 = t59 * t60 * t47 / t7";
  "t70 = math.log(0.1e1 + 0.16081979498692535067e2 / (0.37978500000000000000e1 * t54 + 0.89690000000000000000e0 * t51 + 0.20477500000000000000e0 * t57 + 0.12323500000000000000e0 * t64))";
  "t72 = 0.621814e-1 * (0.1e1 + 0.53425000000000000000e-1 * t51) * t70";
  "t73 = t38 ** 2";
  "t77 = p_a_zeta_threshold ** (0.1e1 / 0.3e1)";
  "t78 = t77 * p_a_zeta_threshold";
  "t79 = t19 ** (0.1e1 / 0.3e1)";
  "t81 = lax_cond(t19 <= p_a_zeta_threshold, t78, t79 * t19)";
  "t83 = t30 ** (0.1e1 / 0.3e1)";
  "t85 = lax_cond(t30 <= p_a_zeta_threshold, t78, t83 * t30)";
  "t87 = 2 ** (0.1e1 / 0.3e1)";
  "t91 = (t81 + t85 - 0.2e1) / (0.2e1 * t87 - 0.2e1)";
  "t102 = math.log(0.1e1 + 0.32163958997385070134e2 / (0.70594500000000000000e1 * t54 + 0.15494250000000000000e1 * t51 + 0.42077500000000000000e0 * t57 + 0.15629250000000000000e0 * t64))";
  "t115 = math.log(0.1e1 + 0.29608749977793437516e2 / (0.51785000000000000000e1 * t54 + 0.90577500000000000000e0 * t51 + 0.11003250000000000000e0 * t57 + 0.12417750000000000000e0 * t64))";
  "t116 = (0.1e1 + 0.27812500000000000000e-1 * t51) * t115";
  "res = (0.1e1 - (s0 + 0.2e1 * s1 + s2) / t7 / t5 / (tau0 / t12 / r0 * t22 * t20 + tau1 / t26 / r1 * t33 * t31) * t38 / 0.8e1) * (-t72 + t73 / t5 * t91 * (-0.3109070e-1 * (0.1e1 + 0.51370000000000000000e-1 * t51) * t102 + t72 - 0.19751673498613801407e-1 * t116) + 0.19751673498613801407e-1 * t91 * t116)"]%b.

(* gen_repo/impl/prebuilt/unpol/mgga_c_cc.py *)
Definition unpol_mgga_c_cc : list bstr := [
  "t1 = 3 ** (0.1e1 / 0.3e1)";
  "t3 = (0.1e1 / math.pi) ** (0.1e1 / 0.3e1)";
  "t5 = 4 ** (0.1e1 / 0.3e1)";
  "t6 = t5 ** 2";
  "t7 = r0 ** (0.1e1 / 0.3e1)";
  "t10 = t1 * t3 * t6 / t7";
  "t13 = math.sqrt(t10)";
  "t16 = t10 ** 0.15e1";
  "t18 = t1 ** 2";
  "t19 = t3 ** 2";
  "t21 = t7 ** 2";
  "t24 = t18 * t19 * t5 / t21";
  "t30 = math.log(0.1e1 + 0.16081979498692535067e2 / (0.37978500000000000000e1 * t13 + 0.89690000000000000000e0 * t10 + 0.20477500000000000000e0 * t16 + 0.12323500000000000000e0 * t24))";
  "t34 = p_a_zeta_threshold ** (0.1e1 / 0.3e1)";
  "t36 = lax_cond(0.1e1 <= p_a_zeta_threshold, t34 * p_a_zeta_threshold, 1)";
  "t39 = 2 ** (0.1e1 / 0.3e1)";
  "t54 = math.log(0.1e1 + 0.29608749977793437516e2 / (0.51785000000000000000e1 * t13 + 0.90577500000000000000e0 * t10 + 0.11003250000000000000e0 * t16 + 0.12417750000000000000e0 * t24))";
  "res = -0.621814e-1 * (0.1e1 + 0.53425000000000000000e-1 * t10) * t30 + 0.19751673498613801407e-1 * (0.2e1 * t36 - 0.2e1) / (0.2e1 * t39 - 0.2e1) * (0.1e1 + 0.27812500000000000000e-1 * t10) * t54"]%b.

(* gen_repo/impl/prebuilt/pol/mgga_c_ccalda.py *)
Definition pol_mgga_c_ccalda : list bstr := [
  "t2 = r0 ** (0.1e1 / 0.3e1)";
  "t3 = t2 ** 2";
  "t7 = r0 - r1";
  "t8 = r0 + r1";
  "t10 = t7 / t8";
  "t11 = 0.1e1 + t10";
  "t12 = t11 / 0.2e1";
  "t13 = t12 ** (0.1e1 / 0.3e1)";
  "t14 = t13 ** 2";
  "t16 = tau0 / t3 / r0 * t14 * t12";
  "t17 = r1 ** (0.1e1 / 0.3e1)";
  "t18 = t17 ** 2";
  "t22 = 0.1e1 - t10";
  "t23 = t22 / 0.2e1";
  "t24 = t23 ** (0.1e1 / 0.3e1)";
  "t25 = t24 ** 2";
  "t27 = tau1 / t18 / r1 * t25 * t23";
  "t29 = s0 + 0.2e1 * s1 + s2";
  "t30 = t8 ** 2";
  "t31 = t8 ** (0.1e1 / 0.3e1)";
  "t32 = t31 ** 2";
  "t37 = t16 + t27 - t29 / t32 / t30 / 0.8e1";
  "t38 = (0.1e1 + params_a_c) * t37";
  "t39 = 6 ** (0.1e1 / 0.3e1)";
  "t40 = math.pi ** 2";
  "t41 = t40 ** (0.1e1 / 0.3e1)";
  "t42 = t41 ** 2";
  "t43 = 0.1e1 / t42";
  "t44 = t39 * t43";
  "t46 = 2 ** (0.1e1 / 0.3e1)";
  "t47 = t46 ** 2";
  "t53 = 0.1e1 / (0.1e1 + 0.5e1 / 0.9e1 * params_a_c * t37 * t44 * t47)";
  "t55 = t30 ** 2";
  "t61 = t7 ** 2";
  "t66 = 3 ** (0.1e1 / 0.3e1)";
  "t68 = (0.1e1 / math.pi) ** (0.1e1 / 0.3e1)";
  "t70 = 4 ** (0.1e1 / 0.3e1)";
  "t71 = t70 ** 2";
  "t74 = t66 * t68 * t71 / t31";
  "t77 = math.sqrt(t74)";
  "t80 = t74 ** 0.15e1";
  "t82 = t66 ** 2";
  "t83 = t68 ** 2";
  "t87 = t82 * t83 * t70 / t32";
  "t93 = math.log(0.1e1 + 0.16081979498692535067e2 / (0.37978500000000000000e1 * t77 + 0.89690000000000000000e0 * t74 + 0.20477500000000000000e0 * t80 + 0.12323500000000000000e0 * t87))";
  "t95 = 0.621814e-1 * (0.1e1 + 0.53425000000000000000e-1 * t74) * t93";
  "t96 = t61 ** 2";
  "t100 = p_a_zeta_threshold ** (0.1e1 / 0.3e1)";
  "t101 = t100 * p_a_zeta_threshold";
  "t102 = t11 ** (0.1e1 / 0.3e1)";
  "t104 = lax_cond(t11 <= p_a_zeta_threshold, t101, t102 * t11)";
  "t106 = t22 ** (0.1e1 / 0.3e1)";
  "t108 = lax_cond(t22 <= p_a_zeta_threshold, t101, t106 * t22)";
  "t113 = (t104 + t108 - 0.2e1) / (0.2e1 * t46 - 0.2e1)";
  "t124 = math.log(0.1e1 + 0.32163958997385070134e2 / (0.70594500000000000000e1 * t77 + 0.15494250000000000000e1 * t74 + 0.42077500000000000000e0 * t80 + 0.15629250000000000000e0 * t87))";
  "t137 = math.log(0.1e1 + 0.29608749977793437516e2 / (0.51785000000000000000e1 * t77 + 0.90577500000000000000e0 * t74 + 0.11003250000000000000e0 * t80 + 0.12417750000000000000e0 * t87))";
  "t138 = (0.1e1 + 0.27812500000000000000e-1 * t74) * t137";
  "t145 = -t95 + t96 / t55 * t113 * (-0.3109070e-1 * (0.1e1 + 0.51370000000000000000e-1 * t74) * t124 + t95 - 0.19751673498613801407e-1 * t138) + 0.19751673498613801407e-1 * t113 * t138";
  "res = 0.5e1 / 0.9e1 * t38 * t44 * t47 * t53 * (0.1e1 - t29 / t32 / t55 / (t16 + t27) * t61 / 0.8e1) * t145 + (0.1e1 - 0.5e1 / 0.9e1 * t38 * t39 * t43 * t47 * t53) * t145"]%b.

(* gen_repo/impl/prebuilt/unpol/mgga_c_ccalda.py *)
Definition unpol_mgga_c_ccalda : list bstr := [
  "t2 = r0 ** (0.1e1 / 0.3e1)";
  "t3 = t2 ** 2";
  "t7 = r0 ** 2";
  "t12 = tau0 / t3 / r0 - s0 / t3 / t7 / 0.8e1";
  "t14 = 6 ** (0.1e1 / 0.3e1)";
  "t15 = (0.1e1 + params_a_c) * t12 * t14";
  "t16 = math.pi ** 2";
  "t17 = t16 ** (0.1e1 / 0.3e1)";
  "t18 = t17 ** 2";
  "t19 = 0.1e1 / t18";
  "t20 = 2 ** (0.1e1 / 0.3e1)";
  "t21 = t20 ** 2";
  "t22 = t19 * t21";
  "t29 = 0.1e1 / (0.1e1 + 0.5e1 / 0.9e1 * params_a_c * t12 * t14 * t19 * t21)";
  "t30 = 3 ** (0.1e1 / 0.3e1)";
  "t32 = (0.1e1 / math.pi) ** (0.1e1 / 0.3e1)";
  "t34 = 4 ** (0.1e1 / 0.3e1)";
  "t35 = t34 ** 2";
  "t38 = t30 * t32 * t35 / t2";
  "t41 = math.sqrt(t38)";
  "t44 = t38 ** 0.15e1";
  "t46 = t30 ** 2";
  "t47 = t32 ** 2";
  "t51 = t46 * t47 * t34 / t3";
  "t57 = math.log(0.1e1 + 0.16081979498692535067e2 / (0.37978500000000000000e1 * t41 + 0.89690000000000000000e0 * t38 + 0.20477500000000000000e0 * t44 + 0.12323500000000000000e0 * t51))";
  "t61 = p_a_zeta_threshold ** (0.1e1 / 0.3e1)";
  "t63 = lax_cond(0.1e1 <= p_a_zeta_threshold, t61 * p_a_zeta_threshold, 1)";
  "t80 = math.log(0.1e1 + 0.29608749977793437516e2 / (0.51785000000000000000e1 * t41 + 0.90577500000000000000e0 * t38 + 0.11003250000000000000e0 * t44 + 0.12417750000000000000e0 * t51))";
  "t84 = -0.621814e-1 * (0.1e1 + 0.53425000000000000000e-1 * t38) * t57 + 0.19751673498613801407e-1 * (0.2e1 * t63 - 0.2e1) / (0.2e1 * t20 - 0.2e1) * (0.1e1 + 0.27812500000000000000e-1 * t38) * t80";
  "res = 0.5e1 / 0.9e1 * t15 * t22 * t29 * t84 + (0.1e1 - 0.5e1 / 0.9e1 * t15 * t22 * t29) * t84"]%b.

(* gen_repo/impl/prebuilt/pol/mgga_c_cs.py *)
Definition pol_mgga_c_cs : list bstr := [
  "t1 = r0 - r1";
  "t2 = t1 ** 2";
  "t3 = r0 + r1";
  "t4 = t3 ** 2";
  "t8 = t3 ** (0.1e1 / 0.3e1)";
  "t9 = 0.1e1 / t8";
  "t15 = math.exp(-0.25330000000000000000e0 * t9)";
  "t17 = t1 / t3";
  "t18 = 0.1e1 + t17";
  "t20 = p_a_zeta_threshold ** 2";
  "t21 = p_a_zeta_threshold ** (0.1e1 / 0.3e1)";
  "t22 = t21 ** 2";
  "t23 = t22 * t20";
  "t24 = t18 ** 2";
  "t25 = t18 ** (0.1e1 / 0.3e1)";
  "t26 = t25 ** 2";
  "t28 = lax_cond(t18 <= p_a_zeta_threshold, t23, t26 * t24)";
  "t29 = 2 ** (0.1e1 / 0.3e1)";
  "t31 = r0 ** (0.1e1 / 0.3e1)";
  "t32 = t31 ** 2";
  "t34 = 0.1e1 / t32 / r0";
  "t36 = l0 * t34";
  "t40 = 0.1e1 - t17";
  "t42 = t40 ** 2";
  "t43 = t40 ** (0.1e1 / 0.3e1)";
  "t44 = t43 ** 2";
  "t46 = lax_cond(t40 <= p_a_zeta_threshold, t23, t44 * t42)";
  "t48 = r1 ** (0.1e1 / 0.3e1)";
  "t49 = t48 ** 2";
  "t51 = 0.1e1 / t49 / r1";
  "t53 = l1 * t51";
  "t59 = t8 ** 2";
  "t63 = t18 / 0.2e1";
  "t64 = t63 ** (0.1e1 / 0.3e1)";
  "t65 = t64 ** 2";
  "t68 = t40 / 0.2e1";
  "t69 = t68 ** (0.1e1 / 0.3e1)";
  "t70 = t69 ** 2";
  "res = -0.4918e-1 * (0.1e1 - t2 / t4) / (0.1e1 + 0.34899999999999999998e0 * t9) * (0.1e1 + 0.264e0 * t15 * (t28 * t29 * (tau0 * t34 - t36 / 0.8e1) / 0.8e1 + t46 * t29 * (tau1 * t51 - t53 / 0.8e1) / 0.8e1 - (s0 + 0.2e1 * s1 + s2) / t59 / t4 / 0.8e1 + t36 * t65 * t63 / 0.8e1 + t53 * t70 * t68 / 0.8e1))"]%b.

(* gen_repo/impl/prebuilt/unpol/mgga_c_cs.py *)
Definition unpol_mgga_c_cs : list bstr := [
  "t1 = r0 ** (0.1e1 / 0.3e1)";
  "t2 = 0.1e1 / t1";
  "t7 = math.exp(-0.25330000000000000000e0 * t2)";
  "t9 = p_a_zeta_threshold ** 2";
  "t10 = p_a_zeta_threshold ** (0.1e1 / 0.3e1)";
  "t11 = t10 ** 2";
  "t13 = lax_cond(0.1e1 <= p_a_zeta_threshold, t11 * t9, 1)";
  "t14 = 2 ** (0.1e1 / 0.3e1)";
  "t16 = t14 ** 2";
  "t18 = t1 ** 2";
  "t20 = 0.1e1 / t18 / r0";
  "t28 = r0 ** 2";
  "res = -0.4918e-1 / (0.1e1 + 0.34899999999999999998e0 * t2) * (0.1e1 + 0.264e0 * t7 * (t13 * t14 * (tau0 * t16 * t20 - l0 * t16 * t20 / 0.8e1) / 0.4e1 - s0 / t18 / t28 / 0.8e1 + l0 * t20 / 0.8e1))"]%b.

(* gen_repo/impl/prebuilt/pol/mgga_c_kcis.py *)
Definition pol_mgga_c_kcis : list bstr := [
  "t1 = 3 ** (0.1e1 / 0.3e1)";
  "t2 = 0.1e1 / math.pi";
  "t3 = t2 ** (0.1e1 / 0.3e1)";
  "t4 = t1 * t3";
  "t5 = 4 ** (0.1e1 / 0.3e1)";
  "t6 = t5 ** 2";
  "t7 = r0 + r1";
  "t8 = t7 ** (0.1e1 / 0.3e1)";
  "t9 = 0.1e1 / t8";
  "t11 = t4 * t6 * t9";
  "t14 = math.sqrt(t11)";
  "t17 = t11 ** 0.15e1";
  "t19 = t1 ** 2";
  "t20 = t3 ** 2";
  "t21 = t19 * t20";
  "t22 = t8 ** 2";
  "t23 = 0.1e1 / t22";
  "t25 = t21 * t5 * t23";
  "t31 = math.log(0.1e1 + 0.16081824322151104822e2 / (0.37978500000000000000e1 * t14 + 0.89690000000000000000e0 * t11 + 0.20477500000000000000e0 * t17 + 0.12323500000000000000e0 * t25))";
  "t33 = 0.62182e-1 * (0.1e1 + 0.53425000000000000000e-1 * t11) * t31";
  "t35 = p_a_zeta_threshold ** (0.1e1 / 0.3e1)";
  "t36 = t35 * p_a_zeta_threshold";
  "t37 = lax_cond(0.1e1 <= p_a_zeta_threshold, t36, 1)";
  "t40 = 2 ** (0.1e1 / 0.3e1)";
  "t43 = 0.1e1 / (0.2e1 * t40 - 0.2e1)";
  "t44 = (0.2e1 * t37 - 0.2e1) * t43";
  "t55 = math.log(0.1e1 + 0.29608574643216675549e2 / (0.51785000000000000000e1 * t14 + 0.90577500000000000000e0 * t11 + 0.11003250000000000000e0 * t17 + 0.12417750000000000000e0 * t25))";
  "t56 = (0.1e1 + 0.27812500000000000000e-1 * t11) * t55";
  "t59 = -t33 + 0.19751789702565206229e-1 * t44 * t56";
  "t61 = s0 + 0.2e1 * s1 + s2";
  "t63 = t7 ** 2";
  "t65 = 0.1e1 / t8 / t63";
  "t67 = 0.1e1 / t3";
  "t68 = t19 * t67";
  "t71 = lax_cond(0.0e0 < t59, t59, -t59)";
  "t78 = math.log(0.1e1 + t40 * t61 * t65 * t68 * t5 / t71 / 0.96e2)";
  "t84 = t1 / t20";
  "t85 = t84 * t6";
  "t87 = 0.1e1 / t8 / t7";
  "t88 = 0.1e1 / t7";
  "t89 = t2 * t88";
  "t95 = 0.1e1 + t14 * (0.107924e1 + 0.39640000000000000000e-1 * t14 + 0.12382500000000000000e-1 * t11) / 0.2e1";
  "t96 = t95 ** 2";
  "t102 = t1 * t3 * t2";
  "t107 = t19 * t20 * t2";
  "t109 = 0.1e1 / t22 / t7";
  "t113 = math.pi ** 2";
  "t114 = 0.1e1 / t113";
  "t115 = 0.1e1 / t63";
  "t116 = t114 * t115";
  "t119 = t1 * t3 * t114";
  "t123 = -0.18780000000000000000e-1 * t89 + 0.13173750000000000000e-2 * t102 * t6 * t87 - 0.23775000000000000000e-3 * t107 * t5 * t109 + 0.63900000000000000000e-4 * t116 - 0.54014062500000000000e-6 * t119 * t6 * t65";
  "t125 = 0.36798313500000000000e-2 * t89 / t96 - t59 * t123";
  "t127 = 4 ** (0.1e1 / 0.6e1)";
  "t129 = t14 * t11";
  "t131 = 0.1e1 / t95";
  "t135 = t59 ** 2";
  "t138 = 0.1e1 / (0.19711288999999999999e-2 * t84 * t127 * t22 * t129 * t131 - 0.2e1 * t135)";
  "t141 = t85 * t87 * t125 * t138 * t61";
  "t144 = math.sqrt(0.4e1)";
  "t149 = t6 * t22";
  "t156 = (0.61912500000000000000e-2 * t59 * t144 * t129 * t131 - 0.79593333333333333331e-1 * t84 * t149 * t123) * t138 * t61 * t115";
  "t159 = t61 ** 2";
  "t160 = t63 ** 2";
  "t163 = t125 * t138 * t159 / t160";
  "t167 = (t59 / (0.1e1 + 0.66725e-1 * t78) + 0.99491666666666666664e-2 * t141) / (0.1e1 + t156 / 0.8e1 - t163 / 0.64e2)";
  "t169 = (r0 - r1) * t88";
  "t170 = 0.1e1 + t169";
  "t171 = t170 <= p_a_zeta_threshold";
  "t172 = t170 ** (0.1e1 / 0.3e1)";
  "t174 = lax_cond(t171, t36, t172 * t170)";
  "t175 = 0.1e1 - t169";
  "t176 = t175 <= p_a_zeta_threshold";
  "t177 = t175 ** (0.1e1 / 0.3e1)";
  "t179 = lax_cond(t176, t36, t177 * t175)";
  "t184 = lax_cond(0.2e1 <= p_a_zeta_threshold, t36, 0.2e1 * t40)";
  "t186 = lax_cond(0.0e0 <= p_a_zeta_threshold, t36, 0)";
  "t188 = (t184 + t186 - 0.2e1) * t43";
  "t199 = math.log(0.1e1 + 0.32164683177870697974e2 / (0.70594500000000000000e1 * t14 + 0.15494250000000000000e1 * t11 + 0.42077500000000000000e0 * t17 + 0.15629250000000000000e0 * t25))";
  "t207 = -t33 + t188 * (-0.31090e-1 * (0.1e1 + 0.51370000000000000000e-1 * t11) * t199 + t33 - 0.19751789702565206229e-1 * t56) + 0.19751789702565206229e-1 * t188 * t56";
  "t210 = t67 * t5";
  "t213 = lax_cond(0.0e0 < t207, t207, -t207)";
  "t219 = math.log(0.1e1 + t61 * t65 * t19 * t210 / t213 / 0.96e2)";
  "t236 = lax_cond(t171, p_a_zeta_threshold, t170)";
  "t238 = t4 * t6";
  "t239 = t9 * t40";
  "t240 = 0.1e1 / t170";
  "t241 = t240 ** (0.1e1 / 0.3e1)";
  "t243 = t238 * t239 * t241";
  "t246 = math.sqrt(t243)";
  "t249 = t243 ** 0.15e1";
  "t251 = t21 * t5";
  "t252 = t40 ** 2";
  "t253 = t23 * t252";
  "t254 = t241 ** 2";
  "t256 = t251 * t253 * t254";
  "t262 = math.log(0.1e1 + 0.16081824322151104822e2 / (0.37978500000000000000e1 * t246 + 0.89690000000000000000e0 * t243 + 0.20477500000000000000e0 * t249 + 0.12323500000000000000e0 * t256))";
  "t264 = 0.62182e-1 * (0.1e1 + 0.53425000000000000000e-1 * t243) * t262";
  "t275 = math.log(0.1e1 + 0.29608574643216675549e2 / (0.51785000000000000000e1 * t246 + 0.90577500000000000000e0 * t243 + 0.11003250000000000000e0 * t249 + 0.12417750000000000000e0 * t256))";
  "t276 = (0.1e1 + 0.27812500000000000000e-1 * t243) * t275";
  "t279 = -t264 + 0.19751789702565206229e-1 * t44 * t276";
  "t280 = r0 ** 2";
  "t281 = r0 ** (0.1e1 / 0.3e1)";
  "t282 = t281 ** 2";
  "t284 = 0.1e1 / t282 / t280";
  "t285 = s0 * t284";
  "t287 = t5 * t8";
  "t288 = 0.1e1 / t241";
  "t291 = lax_cond(0.0e0 < t279, t279, -t279)";
  "t298 = math.log(0.1e1 + t285 * t68 * t287 * t288 / t291 / 0.96e2)";
  "t304 = t84 * t149 * t252";
  "t305 = 0.1e1 / t254";
  "t311 = 0.1e1 + t246 * (0.107924e1 + 0.39640000000000000000e-1 * t246 + 0.12382500000000000000e-1 * t243) / 0.2e1";
  "t312 = t311 ** 2";
  "t319 = t102 * t6";
  "t320 = t87 * t40";
  "t325 = t107 * t5";
  "t326 = t109 * t252";
  "t331 = t170 ** 2";
  "t332 = 0.1e1 / t331";
  "t335 = t119 * t6";
  "t336 = t65 * t40";
  "t341 = -0.37560000000000000000e-1 * t89 * t240 + 0.26347500000000000000e-2 * t319 * t320 * t241 * t240 - 0.47550000000000000000e-3 * t325 * t326 * t254 * t240 + 0.25560000000000000000e-3 * t116 * t332 - 0.21605625000000000000e-5 * t335 * t336 * t241 * t332";
  "t343 = 0.73596627000000000000e-2 * t89 * t240 / t312 - t279 * t341";
  "t346 = t84 * t127 * t22";
  "t350 = t246 * t243 / t311";
  "t354 = t279 ** 2";
  "t357 = 0.1e1 / (0.98556445000000000000e-3 * t346 * t40 * t305 * t350 - 0.2e1 * t354)";
  "t359 = t7 * t170";
  "t360 = t359 ** (0.1e1 / 0.3e1)";
  "t361 = t360 ** 2";
  "t364 = t304 * t305 * t343 * t357 * t285 * t361";
  "t370 = t22 * t40";
  "t380 = (0.61912500000000000000e-2 * t279 * t144 * t350 - 0.39796666666666666666e-1 * t85 * t370 * t305 * t341) * t357 * s0 * t284 * t40 * t361";
  "t383 = s0 ** 2";
  "t385 = t280 ** 2";
  "t392 = t343 * t357 * t383 / t281 / t385 / r0 * t252 * t360 * t359";
  "t396 = (t279 / (0.1e1 + 0.66725e-1 * t298) + 0.24872916666666666666e-2 * t364) / (0.1e1 + t380 / 0.16e2 - t392 / 0.256e3)";
  "t407 = math.log(0.1e1 + 0.32164683177870697974e2 / (0.70594500000000000000e1 * t246 + 0.15494250000000000000e1 * t243 + 0.42077500000000000000e0 * t249 + 0.15629250000000000000e0 * t256))";
  "t415 = -t264 + t188 * (-0.31090e-1 * (0.1e1 + 0.51370000000000000000e-1 * t243) * t407 + t264 - 0.19751789702565206229e-1 * t276) + 0.19751789702565206229e-1 * t188 * t276";
  "t422 = lax_cond(0.0e0 < t415, t415, -t415)";
  "t429 = math.log(0.1e1 + t252 * s0 * t284 * t19 * t210 * t8 * t288 / t422 / 0.192e3)";
  "t450 = lax_cond(t176, p_a_zeta_threshold, t175)";
  "t452 = 0.1e1 / t175";
  "t453 = t452 ** (0.1e1 / 0.3e1)";
  "t455 = t238 * t239 * t453";
  "t458 = math.sqrt(t455)";
  "t461 = t455 ** 0.15e1";
  "t463 = t453 ** 2";
  "t465 = t251 * t253 * t463";
  "t471 = math.log(0.1e1 + 0.16081824322151104822e2 / (0.37978500000000000000e1 * t458 + 0.89690000000000000000e0 * t455 + 0.20477500000000000000e0 * t461 + 0.12323500000000000000e0 * t465))";
  "t473 = 0.62182e-1 * (0.1e1 + 0.53425000000000000000e-1 * t455) * t471";
  "t484 = math.log(0.1e1 + 0.29608574643216675549e2 / (0.51785000000000000000e1 * t458 + 0.90577500000000000000e0 * t455 + 0.11003250000000000000e0 * t461 + 0.12417750000000000000e0 * t465))";
  "t485 = (0.1e1 + 0.27812500000000000000e-1 * t455) * t484";
  "t488 = -t473 + 0.19751789702565206229e-1 * t44 * t485";
  "t489 = r1 ** 2";
  "t490 = r1 ** (0.1e1 / 0.3e1)";
  "t491 = t490 ** 2";
  "t493 = 0.1e1 / t491 / t489";
  "t494 = s2 * t493";
  "t496 = 0.1e1 / t453";
  "t499 = lax_cond(0.0e0 < t488, t488, -t488)";
  "t506 = math.log(0.1e1 + t494 * t68 * t287 * t496 / t499 / 0.96e2)";
  "t511 = 0.1e1 / t463";
  "t517 = 0.1e1 + t458 * (0.107924e1 + 0.39640000000000000000e-1 * t458 + 0.12382500000000000000e-1 * t455) / 0.2e1";
  "t518 = t517 ** 2";
  "t533 = t175 ** 2";
  "t534 = 0.1e1 / t533";
  "t541 = -0.37560000000000000000e-1 * t89 * t452 + 0.26347500000000000000e-2 * t319 * t320 * t453 * t452 - 0.47550000000000000000e-3 * t325 * t326 * t463 * t452 + 0.25560000000000000000e-3 * t116 * t534 - 0.21605625000000000000e-5 * t335 * t336 * t453 * t534";
  "t543 = 0.73596627000000000000e-2 * t89 * t452 / t518 - t488 * t541";
  "t548 = t458 * t455 / t517";
  "t552 = t488 ** 2";
  "t555 = 0.1e1 / (0.98556445000000000000e-3 * t346 * t40 * t511 * t548 - 0.2e1 * t552)";
  "t557 = t7 * t175";
  "t558 = t557 ** (0.1e1 / 0.3e1)";
  "t559 = t558 ** 2";
  "t562 = t304 * t511 * t543 * t555 * t494 * t559";
  "t577 = (0.61912500000000000000e-2 * t488 * t144 * t548 - 0.39796666666666666666e-1 * t85 * t370 * t511 * t541) * t555 * s2 * t493 * t40 * t559";
  "t580 = s2 ** 2";
  "t582 = t489 ** 2";
  "t589 = t543 * t555 * t580 / t490 / t582 / r1 * t252 * t558 * t557";
  "t593 = (t488 / (0.1e1 + 0.66725e-1 * t506) + 0.24872916666666666666e-2 * t562) / (0.1e1 + t577 / 0.16e2 - t589 / 0.256e3)";
  "t604 = math.log(0.1e1 + 0.32164683177870697974e2 / (0.70594500000000000000e1 * t458 + 0.15494250000000000000e1 * t455 + 0.42077500000000000000e0 * t461 + 0.15629250000000000000e0 * t465))";
  "t612 = -t473 + t188 * (-0.31090e-1 * (0.1e1 + 0.51370000000000000000e-1 * t455) * t604 + t473 - 0.19751789702565206229e-1 * t485) + 0.19751789702565206229e-1 * t188 * t485";
  "t619 = lax_cond(0.0e0 < t612, t612, -t612)";
  "t626 = math.log(0.1e1 + t252 * s2 * t493 * t19 * t210 * t8 * t496 / t619 / 0.192e3)";
  "res = t167 + (t174 + t179 - 0.2e1) * t43 * ((t207 / (0.1e1 + 0.66725e-1 * t219) + 0.69644166666666666665e-2 * t141) / (0.1e1 + 0.18750000000000000000e0 * t156 - 0.40468750000000000000e-1 * t163) - t167) - s0 / r0 / tau0 * t236 * (t396 + t188 * ((t415 / (0.1e1 + 0.66725e-1 * t429) + 0.17411041666666666666e-2 * t364) / (0.1e1 + 0.93750000000000000000e-1 * t380 - 0.10117187500000000000e-1 * t392) - t396)) / 0.16e2 - s2 / r1 / tau1 * t450 * (t593 + t188 * ((t612 / (0.1e1 + 0.66725e-1 * t626) + 0.17411041666666666666e-2 * t562) / (0.1e1 + 0.93750000000000000000e-1 * t577 - 0.10117187500000000000e-1 * t589) - t593)) / 0.16e2"]%b.

(* gen_repo/impl/prebuilt/unpol/mgga_c_kcis.py *)
Definition unpol_mgga_c_kcis : list bstr := [
  "t1 = 3 ** (0.1e1 / 0.3e1)";
  "t2 = 0.1e1 / math.pi";
  "t3 = t2 ** (0.1e1 / 0.3e1)";
  "t4 = t1 * t3";
  "t5 = 4 ** (0.1e1 / 0.3e1)";
  "t6 = t5 ** 2";
  "t7 = r0 ** (0.1e1 / 0.3e1)";
  "t9 = t6 / t7";
  "t10 = t4 * t9";
  "t13 = math.sqrt(t10)";
  "t16 = t10 ** 0.15e1";
  "t18 = t1 ** 2";
  "t19 = t3 ** 2";
  "t20 = t18 * t19";
  "t21 = t7 ** 2";
  "t23 = t5 / t21";
  "t24 = t20 * t23";
  "t30 = math.log(0.1e1 + 0.16081824322151104822e2 / (0.37978500000000000000e1 * t13 + 0.89690000000000000000e0 * t10 + 0.20477500000000000000e0 * t16 + 0.12323500000000000000e0 * t24))";
  "t32 = 0.62182e-1 * (0.1e1 + 0.53425000000000000000e-1 * t10) * t30";
  "t33 = 0.1e1 <= p_a_zeta_threshold";
  "t34 = p_a_zeta_threshold ** (0.1e1 / 0.3e1)";
  "t35 = t34 * p_a_zeta_threshold";
  "t36 = lax_cond(t33, t35, 1)";
  "t39 = 2 ** (0.1e1 / 0.3e1)";
  "t42 = 0.1e1 / (0.2e1 * t39 - 0.2e1)";
  "t43 = (0.2e1 * t36 - 0.2e1) * t42";
  "t54 = math.log(0.1e1 + 0.29608574643216675549e2 / (0.51785000000000000000e1 * t13 + 0.90577500000000000000e0 * t10 + 0.11003250000000000000e0 * t16 + 0.12417750000000000000e0 * t24))";
  "t55 = (0.1e1 + 0.27812500000000000000e-1 * t10) * t54";
  "t58 = -t32 + 0.19751789702565206229e-1 * t43 * t55";
  "t60 = r0 ** 2";
  "t62 = 0.1e1 / t7 / t60";
  "t63 = t39 * s0 * t62";
  "t64 = 0.1e1 / t3";
  "t65 = t18 * t64";
  "t68 = lax_cond(0.0e0 < t58, t58, -t58)";
  "t75 = math.log(0.1e1 + t63 * t65 * t5 / t68 / 0.96e2)";
  "t81 = t1 / t19";
  "t82 = t81 * t6";
  "t84 = 0.1e1 / t7 / r0";
  "t85 = 0.1e1 / r0";
  "t86 = t2 * t85";
  "t92 = 0.1e1 + t13 * (0.107924e1 + 0.39640000000000000000e-1 * t13 + 0.12382500000000000000e-1 * t10) / 0.2e1";
  "t93 = t92 ** 2";
  "t99 = t1 * t3 * t2";
  "t100 = t6 * t84";
  "t104 = t18 * t19 * t2";
  "t107 = t5 / t21 / r0";
  "t110 = math.pi ** 2";
  "t111 = 0.1e1 / t110";
  "t112 = 0.1e1 / t60";
  "t113 = t111 * t112";
  "t116 = t1 * t3 * t111";
  "t117 = t6 * t62";
  "t120 = -0.18780000000000000000e-1 * t86 + 0.13173750000000000000e-2 * t99 * t100 - 0.23775000000000000000e-3 * t104 * t107 + 0.63900000000000000000e-4 * t113 - 0.54014062500000000000e-6 * t116 * t117";
  "t122 = 0.36798313500000000000e-2 * t86 / t93 - t58 * t120";
  "t124 = 4 ** (0.1e1 / 0.6e1)";
  "t125 = t81 * t124";
  "t126 = t13 * t10";
  "t128 = 0.1e1 / t92";
  "t132 = t58 ** 2";
  "t135 = 0.1e1 / (0.19711288999999999999e-2 * t125 * t21 * t126 * t128 - 0.2e1 * t132)";
  "t138 = t82 * t84 * t122 * t135 * s0";
  "t141 = math.sqrt(0.4e1)";
  "t152 = s0 * t112";
  "t153 = (0.61912500000000000000e-2 * t58 * t141 * t126 * t128 - 0.79593333333333333331e-1 * t81 * t6 * t21 * t120) * t135 * t152";
  "t156 = s0 ** 2";
  "t157 = t60 ** 2";
  "t159 = t156 / t157";
  "t160 = t122 * t135 * t159";
  "t164 = (t58 / (0.1e1 + 0.66725e-1 * t75) + 0.99491666666666666664e-2 * t138) / (0.1e1 + t153 / 0.8e1 - t160 / 0.64e2)";
  "t167 = lax_cond(0.2e1 <= p_a_zeta_threshold, t35, 0.2e1 * t39)";
  "t169 = lax_cond(0.0e0 <= p_a_zeta_threshold, t35, 0)";
  "t171 = (t167 + t169 - 0.2e1) * t42";
  "t182 = math.log(0.1e1 + 0.32164683177870697974e2 / (0.70594500000000000000e1 * t13 + 0.15494250000000000000e1 * t10 + 0.42077500000000000000e0 * t16 + 0.15629250000000000000e0 * t24))";
  "t190 = -t32 + t171 * (-0.31090e-1 * (0.1e1 + 0.51370000000000000000e-1 * t10) * t182 + t32 - 0.19751789702565206229e-1 * t55) + 0.19751789702565206229e-1 * t171 * t55";
  "t192 = s0 * t62 * t18";
  "t193 = t64 * t5";
  "t196 = lax_cond(0.0e0 < t190, t190, -t190)";
  "t202 = math.log(0.1e1 + t192 * t193 / t196 / 0.96e2)";
  "t218 = lax_cond(t33, p_a_zeta_threshold, 1)";
  "t221 = t4 * t9 * t39";
  "t224 = math.sqrt(t221)";
  "t227 = t221 ** 0.15e1";
  "t229 = t39 ** 2";
  "t231 = t20 * t23 * t229";
  "t237 = math.log(0.1e1 + 0.16081824322151104822e2 / (0.37978500000000000000e1 * t224 + 0.89690000000000000000e0 * t221 + 0.20477500000000000000e0 * t227 + 0.12323500000000000000e0 * t231))";
  "t239 = 0.62182e-1 * (0.1e1 + 0.53425000000000000000e-1 * t221) * t237";
  "t250 = math.log(0.1e1 + 0.29608574643216675549e2 / (0.51785000000000000000e1 * t224 + 0.90577500000000000000e0 * t221 + 0.11003250000000000000e0 * t227 + 0.12417750000000000000e0 * t231))";
  "t251 = (0.1e1 + 0.27812500000000000000e-1 * t221) * t250";
  "t254 = -t239 + 0.19751789702565206229e-1 * t43 * t251";
  "t257 = lax_cond(0.0e0 < t254, t254, -t254)";
  "t264 = math.log(0.1e1 + t192 * t193 * t229 / t257 / 0.96e2)";
  "t275 = 0.1e1 + t224 * (0.107924e1 + 0.39640000000000000000e-1 * t224 + 0.12382500000000000000e-1 * t221) / 0.2e1";
  "t276 = t275 ** 2";
  "t291 = -0.37560000000000000000e-1 * t86 + 0.26347500000000000000e-2 * t99 * t100 * t39 - 0.47550000000000000000e-3 * t104 * t107 * t229 + 0.25560000000000000000e-3 * t113 - 0.21605625000000000000e-5 * t116 * t117 * t39";
  "t293 = 0.73596627000000000000e-2 * t86 / t276 - t254 * t291";
  "t295 = t21 * t39";
  "t298 = t224 * t221 / t275";
  "t302 = t254 ** 2";
  "t305 = 0.1e1 / (0.98556445000000000000e-3 * t125 * t295 * t298 - 0.2e1 * t302)";
  "t308 = t81 * t100 * t39 * t293 * t305 * s0";
  "t319 = (0.61912500000000000000e-2 * t254 * t141 * t298 - 0.39796666666666666666e-1 * t82 * t295 * t291) * t305 * t152";
  "t322 = t293 * t305 * t159";
  "t326 = (t254 / (0.1e1 + 0.66725e-1 * t264) + 0.49745833333333333332e-2 * t308) / (0.1e1 + t319 / 0.8e1 - t322 / 0.64e2)";
  "t337 = math.log(0.1e1 + 0.32164683177870697974e2 / (0.70594500000000000000e1 * t224 + 0.15494250000000000000e1 * t221 + 0.42077500000000000000e0 * t227 + 0.15629250000000000000e0 * t231))";
  "t345 = -t239 + t171 * (-0.31090e-1 * (0.1e1 + 0.51370000000000000000e-1 * t221) * t337 + t239 - 0.19751789702565206229e-1 * t251) + 0.19751789702565206229e-1 * t171 * t251";
  "t348 = lax_cond(0.0e0 < t345, t345, -t345)";
  "t355 = math.log(0.1e1 + t63 * t65 * t5 / t348 / 0.96e2)";
  "res = t164 + t43 * ((t190 / (0.1e1 + 0.66725e-1 * t202) + 0.69644166666666666665e-2 * t138) / (0.1e1 + 0.18750000000000000000e0 * t153 - 0.40468750000000000000e-1 * t160) - t164) - s0 * t85 / tau0 * t218 * (t326 + t171 * ((t345 / (0.1e1 + 0.66725e-1 * t355) + 0.34822083333333333332e-2 * t308) / (0.1e1 + 0.18750000000000000000e0 * t319 - 0.40468750000000000000e-1 * t322) - t326)) / 0.8e1"]%b.

(* gen_repo/impl/prebuilt/pol/mgga_c_kcisk.py *)
Definition pol_mgga_c_kcisk : list bstr := [
  "t1 = 3 ** (0.1e1 / 0.3e1)";
  "t2 = 0.1e1 / math.pi";
  "t3 = t2 ** (0.1e1 / 0.3e1)";
  "t4 = t1 * t3";
  "t5 = 4 ** (0.1e1 / 0.3e1)";
  "t6 = t5 ** 2";
  "t7 = r0 + r1";
  "t8 = t7 ** (0.1e1 / 0.3e1)";
  "t9 = 0.1e1 / t8";
  "t10 = t6 * t9";
  "t11 = t4 * t10";
  "t14 = math.sqrt(t11)";
  "t17 = t11 ** 0.15e1";
  "t19 = t1 ** 2";
  "t20 = t3 ** 2";
  "t21 = t19 * t20";
  "t22 = t8 ** 2";
  "t23 = 0.1e1 / t22";
  "t24 = t5 * t23";
  "t25 = t21 * t24";
  "t31 = math.log(0.1e1 + 0.16081824322151104822e2 / (0.37978500000000000000e1 * t14 + 0.89690000000000000000e0 * t11 + 0.20477500000000000000e0 * t17 + 0.12323500000000000000e0 * t25))";
  "t33 = 0.62182e-1 * (0.1e1 + 0.53425000000000000000e-1 * t11) * t31";
  "t35 = p_a_zeta_threshold ** (0.1e1 / 0.3e1)";
  "t36 = t35 * p_a_zeta_threshold";
  "t37 = lax_cond(0.1e1 <= p_a_zeta_threshold, t36, 1)";
  "t40 = 2 ** (0.1e1 / 0.3e1)";
  "t43 = 0.1e1 / (0.2e1 * t40 - 0.2e1)";
  "t44 = (0.2e1 * t37 - 0.2e1) * t43";
  "t55 = math.log(0.1e1 + 0.29608574643216675549e2 / (0.51785000000000000000e1 * t14 + 0.90577500000000000000e0 * t11 + 0.11003250000000000000e0 * t17 + 0.12417750000000000000e0 * t25))";
  "t56 = (0.1e1 + 0.27812500000000000000e-1 * t11) * t55";
  "t59 = -t33 + 0.19751789702565206229e-1 * t44 * t56";
  "t61 = 6 ** (0.1e1 / 0.3e1)";
  "t62 = t61 ** 2";
  "t64 = math.pi ** 2";
  "t65 = t64 ** (0.1e1 / 0.3e1)";
  "t66 = 0.1e1 / t65";
  "t70 = t40 * t1 * t3 * t6 * t9";
  "t73 = math.sqrt(t70)";
  "t76 = t70 ** 0.15e1";
  "t78 = t40 ** 2";
  "t82 = t78 * t19 * t20 * t5 * t23";
  "t88 = math.log(0.1e1 + 0.16081824322151104822e2 / (0.37978500000000000000e1 * t73 + 0.89690000000000000000e0 * t70 + 0.20477500000000000000e0 * t76 + 0.12323500000000000000e0 * t82))";
  "t101 = math.log(0.1e1 + 0.29608574643216675549e2 / (0.51785000000000000000e1 * t73 + 0.90577500000000000000e0 * t70 + 0.11003250000000000000e0 * t76 + 0.12417750000000000000e0 * t82))";
  "t109 = 0.10e2 / 0.9e1 * t40 * t2 * t62 * t66 * (-0.62182e-1 * (0.1e1 + 0.53425000000000000000e-1 * t70) * t88 + 0.19751789702565206229e-1 * t44 * (0.1e1 + 0.27812500000000000000e-1 * t70) * t101) * t9";
  "t112 = lax_cond(t109 < -0.66725e-1, 0, 0.66725e-1 + t109)";
  "t115 = s0 + 0.2e1 * s1 + s2";
  "t116 = t7 ** 2";
  "t118 = 0.1e1 / t8 / t116";
  "t121 = 0.1e1 / t3";
  "t122 = t19 * t121";
  "t125 = lax_cond(0.0e0 < t59, t59, -t59)";
  "t132 = math.log(0.1e1 + 0.53972366148531951642e-1 * t112 * t40 * t115 * t118 * t122 * t5 / t125)";
  "t138 = t1 / t20";
  "t139 = t138 * t6";
  "t141 = 0.1e1 / t8 / t7";
  "t142 = 0.1e1 / t7";
  "t143 = t2 * t142";
  "t149 = 0.1e1 + t14 * (0.107924e1 + 0.39640000000000000000e-1 * t14 + 0.12382500000000000000e-1 * t11) / 0.2e1";
  "t150 = t149 ** 2";
  "t156 = t1 * t3 * t2";
  "t161 = t19 * t20 * t2";
  "t163 = 0.1e1 / t22 / t7";
  "t167 = 0.1e1 / t64";
  "t168 = 0.1e1 / t116";
  "t169 = t167 * t168";
  "t172 = t1 * t3 * t167";
  "t176 = -0.18780000000000000000e-1 * t143 + 0.13173750000000000000e-2 * t156 * t6 * t141 - 0.23775000000000000000e-3 * t161 * t5 * t163 + 0.63900000000000000000e-4 * t169 - 0.54014062500000000000e-6 * t172 * t6 * t118";
  "t178 = 0.36798313500000000000e-2 * t143 / t150 - t59 * t176";
  "t180 = 4 ** (0.1e1 / 0.6e1)";
  "t182 = t14 * t11";
  "t184 = 0.1e1 / t149";
  "t188 = t59 ** 2";
  "t191 = 0.1e1 / (0.19711288999999999999e-2 * t138 * t180 * t22 * t182 * t184 - 0.2e1 * t188)";
  "t194 = t139 * t141 * t178 * t191 * t115";
  "t197 = math.sqrt(0.4e1)";
  "t202 = t6 * t22";
  "t209 = (0.61912500000000000000e-2 * t59 * t197 * t182 * t184 - 0.79593333333333333331e-1 * t138 * t202 * t176) * t191 * t115 * t168";
  "t212 = t115 ** 2";
  "t213 = t116 ** 2";
  "t216 = t178 * t191 * t212 / t213";
  "t220 = (t59 / (0.1e1 + 0.193e0 * t132) + 0.99491666666666666664e-2 * t194) / (0.1e1 + t209 / 0.8e1 - t216 / 0.64e2)";
  "t222 = (r0 - r1) * t142";
  "t223 = 0.1e1 + t222";
  "t224 = t223 <= p_a_zeta_threshold";
  "t225 = t223 ** (0.1e1 / 0.3e1)";
  "t227 = lax_cond(t224, t36, t225 * t223)";
  "t228 = 0.1e1 - t222";
  "t229 = t228 <= p_a_zeta_threshold";
  "t230 = t228 ** (0.1e1 / 0.3e1)";
  "t232 = lax_cond(t229, t36, t230 * t228)";
  "t237 = lax_cond(0.2e1 <= p_a_zeta_threshold, t36, 0.2e1 * t40)";
  "t239 = lax_cond(0.0e0 <= p_a_zeta_threshold, t36, 0)";
  "t241 = (t237 + t239 - 0.2e1) * t43";
  "t252 = math.log(0.1e1 + 0.32164683177870697974e2 / (0.70594500000000000000e1 * t14 + 0.15494250000000000000e1 * t11 + 0.42077500000000000000e0 * t17 + 0.15629250000000000000e0 * t25))";
  "t260 = -t33 + t241 * (-0.31090e-1 * (0.1e1 + 0.51370000000000000000e-1 * t11) * t252 + t33 - 0.19751789702565206229e-1 * t56) + 0.19751789702565206229e-1 * t241 * t56";
  "t261 = t2 * t62";
  "t265 = 0.10e2 / 0.9e1 * t261 * t66 * t59 * t9";
  "t268 = lax_cond(t265 < -0.66725e-1, 0, 0.66725e-1 + t265)";
  "t273 = lax_cond(0.0e0 < t260, t260, -t260)";
  "t280 = math.log(0.1e1 + 0.53972366148531951640e-1 * t268 * t115 * t118 * t122 * t5 / t273)";
  "t297 = lax_cond(t224, p_a_zeta_threshold, t223)";
  "t299 = t4 * t6";
  "t300 = t9 * t40";
  "t301 = 0.1e1 / t223";
  "t302 = t301 ** (0.1e1 / 0.3e1)";
  "t304 = t299 * t300 * t302";
  "t307 = math.sqrt(t304)";
  "t310 = t304 ** 0.15e1";
  "t312 = t21 * t5";
  "t313 = t23 * t78";
  "t314 = t302 ** 2";
  "t316 = t312 * t313 * t314";
  "t322 = math.log(0.1e1 + 0.16081824322151104822e2 / (0.37978500000000000000e1 * t307 + 0.89690000000000000000e0 * t304 + 0.20477500000000000000e0 * t310 + 0.12323500000000000000e0 * t316))";
  "t324 = 0.62182e-1 * (0.1e1 + 0.53425000000000000000e-1 * t304) * t322";
  "t335 = math.log(0.1e1 + 0.29608574643216675549e2 / (0.51785000000000000000e1 * t307 + 0.90577500000000000000e0 * t304 + 0.11003250000000000000e0 * t310 + 0.12417750000000000000e0 * t316))";
  "t336 = (0.1e1 + 0.27812500000000000000e-1 * t304) * t335";
  "t339 = -t324 + 0.19751789702565206229e-1 * t44 * t336";
  "t341 = t78 * t2 * t62";
  "t343 = t78 * t1 * t3";
  "t345 = t343 * t10 * t302";
  "t348 = math.sqrt(t345)";
  "t351 = t345 ** 0.15e1";
  "t354 = t40 * t19 * t20";
  "t356 = t354 * t24 * t314";
  "t362 = math.log(0.1e1 + 0.16081824322151104822e2 / (0.37978500000000000000e1 * t348 + 0.89690000000000000000e0 * t345 + 0.20477500000000000000e0 * t351 + 0.24647000000000000000e0 * t356))";
  "t375 = math.log(0.1e1 + 0.29608574643216675549e2 / (0.51785000000000000000e1 * t348 + 0.90577500000000000000e0 * t345 + 0.11003250000000000000e0 * t351 + 0.24835500000000000000e0 * t356))";
  "t381 = t7 * t223";
  "t382 = t381 ** (0.1e1 / 0.3e1)";
  "t383 = 0.1e1 / t382";
  "t386 = 0.10e2 / 0.9e1 * t341 * t66 * (-0.62182e-1 * (0.1e1 + 0.53425000000000000000e-1 * t345) * t362 + 0.19751789702565206229e-1 * t44 * (0.1e1 + 0.27812500000000000000e-1 * t345) * t375) * t383";
  "t389 = lax_cond(t386 < -0.66725e-1, 0, 0.66725e-1 + t386)";
  "t391 = r0 ** 2";
  "t392 = r0 ** (0.1e1 / 0.3e1)";
  "t393 = t392 ** 2";
  "t395 = 0.1e1 / t393 / t391";
  "t398 = t121 * t5";
  "t400 = t8 / t302";
  "t403 = lax_cond(0.0e0 < t339, t339, -t339)";
  "t410 = math.log(0.1e1 + 0.53972366148531951640e-1 * t389 * s0 * t395 * t19 * t398 * t400 / t403)";
  "t416 = t138 * t202 * t78";
  "t417 = 0.1e1 / t314";
  "t423 = 0.1e1 + t307 * (0.107924e1 + 0.39640000000000000000e-1 * t307 + 0.12382500000000000000e-1 * t304) / 0.2e1";
  "t424 = t423 ** 2";
  "t431 = t156 * t6";
  "t432 = t141 * t40";
  "t437 = t161 * t5";
  "t438 = t163 * t78";
  "t443 = t223 ** 2";
  "t444 = 0.1e1 / t443";
  "t447 = t172 * t6";
  "t448 = t118 * t40";
  "t453 = -0.37560000000000000000e-1 * t143 * t301 + 0.26347500000000000000e-2 * t431 * t432 * t302 * t301 - 0.47550000000000000000e-3 * t437 * t438 * t314 * t301 + 0.25560000000000000000e-3 * t169 * t444 - 0.21605625000000000000e-5 * t447 * t448 * t302 * t444";
  "t455 = 0.73596627000000000000e-2 * t143 * t301 / t424 - t339 * t453";
  "t458 = t138 * t180 * t22";
  "t462 = t307 * t304 / t423";
  "t466 = t339 ** 2";
  "t469 = 0.1e1 / (0.98556445000000000000e-3 * t458 * t40 * t417 * t462 - 0.2e1 * t466)";
  "t471 = s0 * t395";
  "t472 = t382 ** 2";
  "t475 = t416 * t417 * t455 * t469 * t471 * t472";
  "t481 = t22 * t40";
  "t491 = (0.61912500000000000000e-2 * t339 * t197 * t462 - 0.39796666666666666666e-1 * t139 * t481 * t417 * t453) * t469 * s0 * t395 * t40 * t472";
  "t494 = s0 ** 2";
  "t496 = t391 ** 2";
  "t503 = t455 * t469 * t494 / t392 / t496 / r0 * t78 * t382 * t381";
  "t507 = (t339 / (0.1e1 + 0.193e0 * t410) + 0.24872916666666666666e-2 * t475) / (0.1e1 + t491 / 0.16e2 - t503 / 0.256e3)";
  "t518 = math.log(0.1e1 + 0.32164683177870697974e2 / (0.70594500000000000000e1 * t307 + 0.15494250000000000000e1 * t304 + 0.42077500000000000000e0 * t310 + 0.15629250000000000000e0 * t316))";
  "t526 = -t324 + t241 * (-0.31090e-1 * (0.1e1 + 0.51370000000000000000e-1 * t304) * t518 + t324 - 0.19751789702565206229e-1 * t336) + 0.19751789702565206229e-1 * t241 * t336";
  "t527 = t261 * t66";
  "t531 = 0.10e2 / 0.9e1 * t527 * t339 * t40 * t383";
  "t534 = lax_cond(t531 < -0.66725e-1, 0, 0.66725e-1 + t531)";
  "t540 = lax_cond(0.0e0 < t526, t526, -t526)";
  "t547 = math.log(0.1e1 + 0.26986183074265975820e-1 * t78 * t534 * t471 * t19 * t398 * t400 / t540)";
  "t568 = lax_cond(t229, p_a_zeta_threshold, t228)";
  "t570 = 0.1e1 / t228";
  "t571 = t570 ** (0.1e1 / 0.3e1)";
  "t573 = t299 * t300 * t571";
  "t576 = math.sqrt(t573)";
  "t579 = t573 ** 0.15e1";
  "t581 = t571 ** 2";
  "t583 = t312 * t313 * t581";
  "t589 = math.log(0.1e1 + 0.16081824322151104822e2 / (0.37978500000000000000e1 * t576 + 0.89690000000000000000e0 * t573 + 0.20477500000000000000e0 * t579 + 0.12323500000000000000e0 * t583))";
  "t591 = 0.62182e-1 * (0.1e1 + 0.53425000000000000000e-1 * t573) * t589";
  "t602 = math.log(0.1e1 + 0.29608574643216675549e2 / (0.51785000000000000000e1 * t576 + 0.90577500000000000000e0 * t573 + 0.11003250000000000000e0 * t579 + 0.12417750000000000000e0 * t583))";
  "t603 = (0.1e1 + 0.27812500000000000000e-1 * t573) * t602";
  "t606 = -t591 + 0.19751789702565206229e-1 * t44 * t603";
  "t608 = t343 * t10 * t571";
  "t611 = math.sqrt(t608)";
  "t614 = t608 ** 0.15e1";
  "t617 = t354 * t24 * t581";
  "t623 = math.log(0.1e1 + 0.16081824322151104822e2 / (0.37978500000000000000e1 * t611 + 0.89690000000000000000e0 * t608 + 0.20477500000000000000e0 * t614 + 0.24647000000000000000e0 * t617))";
  "t636 = math.log(0.1e1 + 0.29608574643216675549e2 / (0.51785000000000000000e1 * t611 + 0.90577500000000000000e0 * t608 + 0.11003250000000000000e0 * t614 + 0.24835500000000000000e0 * t617))";
  "t642 = t7 * t228";
  "t643 = t642 ** (0.1e1 / 0.3e1)";
  "t644 = 0.1e1 / t643";
  "t647 = 0.10e2 / 0.9e1 * t341 * t66 * (-0.62182e-1 * (0.1e1 + 0.53425000000000000000e-1 * t608) * t623 + 0.19751789702565206229e-1 * t44 * (0.1e1 + 0.27812500000000000000e-1 * t608) * t636) * t644";
  "t650 = lax_cond(t647 < -0.66725e-1, 0, 0.66725e-1 + t647)";
  "t652 = r1 ** 2";
  "t653 = r1 ** (0.1e1 / 0.3e1)";
  "t654 = t653 ** 2";
  "t656 = 0.1e1 / t654 / t652";
  "t660 = t8 / t571";
  "t663 = lax_cond(0.0e0 < t606, t606, -t606)";
  "t670 = math.log(0.1e1 + 0.53972366148531951640e-1 * t650 * s2 * t656 * t19 * t398 * t660 / t663)";
  "t675 = 0.1e1 / t581";
  "t681 = 0.1e1 + t576 * (0.107924e1 + 0.39640000000000000000e-1 * t576 + 0.12382500000000000000e-1 * t573) / 0.2e1";
  "t682 = t681 ** 2";
  "t697 = t228 ** 2";
  "t698 = 0.1e1 / t697";
  "t705 = -0.37560000000000000000e-1 * t143 * t570 + 0.26347500000000000000e-2 * t431 * t432 * t571 * t570 - 0.47550000000000000000e-3 * t437 * t438 * t581 * t570 + 0.25560000000000000000e-3 * t169 * t698 - 0.21605625000000000000e-5 * t447 * t448 * t571 * t698";
  "t707 = 0.73596627000000000000e-2 * t143 * t570 / t682 - t606 * t705";
  "t712 = t576 * t573 / t681";
  "t716 = t606 ** 2";
  "t719 = 0.1e1 / (0.98556445000000000000e-3 * t458 * t40 * t675 * t712 - 0.2e1 * t716)";
  "t721 = s2 * t656";
  "t722 = t643 ** 2";
  "t725 = t416 * t675 * t707 * t719 * t721 * t722";
  "t740 = (0.61912500000000000000e-2 * t606 * t197 * t712 - 0.39796666666666666666e-1 * t139 * t481 * t675 * t705) * t719 * s2 * t656 * t40 * t722";
  "t743 = s2 ** 2";
  "t745 = t652 ** 2";
  "t752 = t707 * t719 * t743 / t653 / t745 / r1 * t78 * t643 * t642";
  "t756 = (t606 / (0.1e1 + 0.193e0 * t670) + 0.24872916666666666666e-2 * t725) / (0.1e1 + t740 / 0.16e2 - t752 / 0.256e3)";
  "t767 = math.log(0.1e1 + 0.32164683177870697974e2 / (0.70594500000000000000e1 * t576 + 0.15494250000000000000e1 * t573 + 0.42077500000000000000e0 * t579 + 0.15629250000000000000e0 * t583))";
  "t775 = -t591 + t241 * (-0.31090e-1 * (0.1e1 + 0.51370000000000000000e-1 * t573) * t767 + t591 - 0.19751789702565206229e-1 * t603) + 0.19751789702565206229e-1 * t241 * t603";
  "t779 = 0.10e2 / 0.9e1 * t527 * t606 * t40 * t644";
  "t782 = lax_cond(t779 < -0.66725e-1, 0, 0.66725e-1 + t779)";
  "t788 = lax_cond(0.0e0 < t775, t775, -t775)";
  "t795 = math.log(0.1e1 + 0.26986183074265975820e-1 * t78 * t782 * t721 * t19 * t398 * t660 / t788)";
  "res = t220 + (t227 + t232 - 0.2e1) * t43 * ((t260 / (0.1e1 + 0.193e0 * t280) + 0.69644166666666666665e-2 * t194) / (0.1e1 + 0.18750000000000000000e0 * t209 - 0.40468750000000000000e-1 * t216) - t220) - s0 / r0 / tau0 * t297 * (t507 + t241 * ((t526 / (0.1e1 + 0.193e0 * t547) + 0.17411041666666666666e-2 * t475) / (0.1e1 + 0.93750000000000000000e-1 * t491 - 0.10117187500000000000e-1 * t503) - t507)) / 0.16e2 - s2 / r1 / tau1 * t568 * (t756 + t241 * ((t775 / (0.1e1 + 0.193e0 * t795) + 0.17411041666666666666e-2 * t725) / (0.1e1 + 0.93750000000000000000e-1 * t740 - 0.10117187500000000000e-1 * t752) - t756)) / 0.16e2"]%b.

(* gen_repo/impl/prebuilt/unpol/mgga_c_kcisk.py *)
Definition unpol_mgga_c_kcisk : list bstr := [
  "t1 = 3 ** (0.1e1 / 0.3e1)";
  "t2 = 0.1e1 / math.pi";
  "t3 = t2 ** (0.1e1 / 0.3e1)";
  "t5 = 4 ** (0.1e1 / 0.3e1)";
  "t6 = t5 ** 2";
  "t7 = r0 ** (0.1e1 / 0.3e1)";
  "t8 = 0.1e1 / t7";
  "t10 = t1 * t3 * t6 * t8";
  "t13 = math.sqrt(t10)";
  "t16 = t10 ** 0.15e1";
  "t18 = t1 ** 2";
  "t19 = t3 ** 2";
  "t21 = t7 ** 2";
  "t22 = 0.1e1 / t21";
  "t24 = t18 * t19 * t5 * t22";
  "t30 = math.log(0.1e1 + 0.16081824322151104822e2 / (0.37978500000000000000e1 * t13 + 0.89690000000000000000e0 * t10 + 0.20477500000000000000e0 * t16 + 0.12323500000000000000e0 * t24))";
  "t32 = 0.62182e-1 * (0.1e1 + 0.53425000000000000000e-1 * t10) * t30";
  "t33 = 0.1e1 <= p_a_zeta_threshold";
  "t34 = p_a_zeta_threshold ** (0.1e1 / 0.3e1)";
  "t35 = t34 * p_a_zeta_threshold";
  "t36 = lax_cond(t33, t35, 1)";
  "t39 = 2 ** (0.1e1 / 0.3e1)";
  "t42 = 0.1e1 / (0.2e1 * t39 - 0.2e1)";
  "t43 = (0.2e1 * t36 - 0.2e1) * t42";
  "t54 = math.log(0.1e1 + 0.29608574643216675549e2 / (0.51785000000000000000e1 * t13 + 0.90577500000000000000e0 * t10 + 0.11003250000000000000e0 * t16 + 0.12417750000000000000e0 * t24))";
  "t55 = (0.1e1 + 0.27812500000000000000e-1 * t10) * t54";
  "t58 = -t32 + 0.19751789702565206229e-1 * t43 * t55";
  "t60 = 6 ** (0.1e1 / 0.3e1)";
  "t61 = t60 ** 2";
  "t63 = math.pi ** 2";
  "t64 = t63 ** (0.1e1 / 0.3e1)";
  "t65 = 0.1e1 / t64";
  "t66 = t39 * t1";
  "t68 = t3 * t6 * t8";
  "t69 = t66 * t68";
  "t72 = math.sqrt(t69)";
  "t75 = t69 ** 0.15e1";
  "t77 = t39 ** 2";
  "t78 = t77 * t18";
  "t80 = t19 * t5 * t22";
  "t81 = t78 * t80";
  "t87 = math.log(0.1e1 + 0.16081824322151104822e2 / (0.37978500000000000000e1 * t72 + 0.89690000000000000000e0 * t69 + 0.20477500000000000000e0 * t75 + 0.12323500000000000000e0 * t81))";
  "t89 = 0.62182e-1 * (0.1e1 + 0.53425000000000000000e-1 * t69) * t87";
  "t100 = math.log(0.1e1 + 0.29608574643216675549e2 / (0.51785000000000000000e1 * t72 + 0.90577500000000000000e0 * t69 + 0.11003250000000000000e0 * t75 + 0.12417750000000000000e0 * t81))";
  "t101 = (0.1e1 + 0.27812500000000000000e-1 * t69) * t100";
  "t104 = -t89 + 0.19751789702565206229e-1 * t43 * t101";
  "t108 = 0.10e2 / 0.9e1 * t39 * t2 * t61 * t65 * t104 * t8";
  "t111 = lax_cond(t108 < -0.66725e-1, 0, 0.66725e-1 + t108)";
  "t113 = r0 ** 2";
  "t115 = 0.1e1 / t7 / t113";
  "t117 = t111 * t39 * s0 * t115";
  "t119 = t18 / t3";
  "t122 = lax_cond(0.0e0 < t58, t58, -t58)";
  "t129 = math.log(0.1e1 + 0.53972366148531951642e-1 * t117 * t119 * t5 / t122)";
  "t134 = 0.1e1 / t19";
  "t135 = t1 * t134";
  "t138 = 0.1e1 / t7 / r0";
  "t139 = 0.1e1 / r0";
  "t140 = t2 * t139";
  "t146 = 0.1e1 + t13 * (0.107924e1 + 0.39640000000000000000e-1 * t13 + 0.12382500000000000000e-1 * t10) / 0.2e1";
  "t147 = t146 ** 2";
  "t152 = t3 * t2";
  "t157 = t19 * t2";
  "t160 = 0.1e1 / t21 / r0";
  "t164 = 0.1e1 / t63";
  "t165 = 0.1e1 / t113";
  "t166 = t164 * t165";
  "t168 = t3 * t164";
  "t173 = -0.18780000000000000000e-1 * t140 + 0.13173750000000000000e-2 * t1 * t152 * t6 * t138 - 0.23775000000000000000e-3 * t18 * t157 * t5 * t160 + 0.63900000000000000000e-4 * t166 - 0.54014062500000000000e-6 * t1 * t168 * t6 * t115";
  "t175 = 0.36798313500000000000e-2 * t140 / t147 - t58 * t173";
  "t177 = 4 ** (0.1e1 / 0.6e1)";
  "t179 = t13 * t10";
  "t181 = 0.1e1 / t146";
  "t185 = t58 ** 2";
  "t188 = 0.1e1 / (0.19711288999999999999e-2 * t135 * t177 * t21 * t179 * t181 - 0.2e1 * t185)";
  "t191 = t135 * t6 * t138 * t175 * t188 * s0";
  "t194 = math.sqrt(0.4e1)";
  "t199 = t6 * t21";
  "t205 = s0 * t165";
  "t206 = (0.61912500000000000000e-2 * t58 * t194 * t179 * t181 - 0.79593333333333333331e-1 * t135 * t199 * t173) * t188 * t205";
  "t209 = s0 ** 2";
  "t210 = t113 ** 2";
  "t212 = t209 / t210";
  "t213 = t175 * t188 * t212";
  "t217 = (t58 / (0.1e1 + 0.193e0 * t129) + 0.99491666666666666664e-2 * t191) / (0.1e1 + t206 / 0.8e1 - t213 / 0.64e2)";
  "t220 = lax_cond(0.2e1 <= p_a_zeta_threshold, t35, 0.2e1 * t39)";
  "t222 = lax_cond(0.0e0 <= p_a_zeta_threshold, t35, 0)";
  "t224 = (t220 + t222 - 0.2e1) * t42";
  "t235 = math.log(0.1e1 + 0.32164683177870697974e2 / (0.70594500000000000000e1 * t13 + 0.15494250000000000000e1 * t10 + 0.42077500000000000000e0 * t16 + 0.15629250000000000000e0 * t24))";
  "t243 = -t32 + t224 * (-0.31090e-1 * (0.1e1 + 0.51370000000000000000e-1 * t10) * t235 + t32 - 0.19751789702565206229e-1 * t55) + 0.19751789702565206229e-1 * t224 * t55";
  "t248 = 0.10e2 / 0.9e1 * t2 * t61 * t65 * t58 * t8";
  "t251 = lax_cond(t248 < -0.66725e-1, 0, 0.66725e-1 + t248)";
  "t256 = lax_cond(0.0e0 < t243, t243, -t243)";
  "t263 = math.log(0.1e1 + 0.53972366148531951640e-1 * t251 * s0 * t115 * t119 * t5 / t256)";
  "t279 = lax_cond(t33, p_a_zeta_threshold, 1)";
  "t284 = t77 * t1 * t68";
  "t287 = math.sqrt(t284)";
  "t290 = t284 ** 0.15e1";
  "t293 = t39 * t18 * t80";
  "t299 = math.log(0.1e1 + 0.16081824322151104822e2 / (0.37978500000000000000e1 * t287 + 0.89690000000000000000e0 * t284 + 0.20477500000000000000e0 * t290 + 0.24647000000000000000e0 * t293))";
  "t312 = math.log(0.1e1 + 0.29608574643216675549e2 / (0.51785000000000000000e1 * t287 + 0.90577500000000000000e0 * t284 + 0.11003250000000000000e0 * t290 + 0.24835500000000000000e0 * t293))";
  "t320 = 0.10e2 / 0.9e1 * t77 * t2 * t61 * t65 * (-0.62182e-1 * (0.1e1 + 0.53425000000000000000e-1 * t284) * t299 + 0.19751789702565206229e-1 * t43 * (0.1e1 + 0.27812500000000000000e-1 * t284) * t312) * t8";
  "t323 = lax_cond(t320 < -0.66725e-1, 0, 0.66725e-1 + t320)";
  "t329 = lax_cond(0.0e0 < t104, t104, -t104)";
  "t336 = math.log(0.1e1 + 0.53972366148531951642e-1 * t323 * s0 * t115 * t77 * t119 * t5 / t329)";
  "t348 = 0.1e1 + t72 * (0.107924e1 + 0.39640000000000000000e-1 * t72 + 0.12382500000000000000e-1 * t69) / 0.2e1";
  "t349 = t348 ** 2";
  "t367 = -0.37560000000000000000e-1 * t140 + 0.26347500000000000000e-2 * t66 * t152 * t6 * t138 - 0.47550000000000000000e-3 * t78 * t157 * t5 * t160 + 0.25560000000000000000e-3 * t166 - 0.21605625000000000000e-5 * t66 * t168 * t6 * t115";
  "t369 = 0.73596627000000000000e-2 * t140 / t349 - t104 * t367";
  "t371 = t66 * t134";
  "t375 = t72 * t69 / t348";
  "t379 = t104 ** 2";
  "t382 = 0.1e1 / (0.98556445000000000000e-3 * t371 * t177 * t21 * t375 - 0.2e1 * t379)";
  "t385 = t66 * t134 * t6 * t138 * t369 * t382 * s0";
  "t396 = (0.61912500000000000000e-2 * t104 * t194 * t375 - 0.39796666666666666667e-1 * t371 * t199 * t367) * t382 * t205";
  "t399 = t369 * t382 * t212";
  "t403 = (t104 / (0.1e1 + 0.193e0 * t336) + 0.49745833333333333334e-2 * t385) / (0.1e1 + t396 / 0.8e1 - t399 / 0.64e2)";
  "t414 = math.log(0.1e1 + 0.32164683177870697974e2 / (0.70594500000000000000e1 * t72 + 0.15494250000000000000e1 * t69 + 0.42077500000000000000e0 * t75 + 0.15629250000000000000e0 * t81))";
  "t422 = -t89 + t224 * (-0.31090e-1 * (0.1e1 + 0.51370000000000000000e-1 * t69) * t414 + t89 - 0.19751789702565206229e-1 * t101) + 0.19751789702565206229e-1 * t224 * t101";
  "t425 = lax_cond(0.0e0 < t422, t422, -t422)";
  "t432 = math.log(0.1e1 + 0.53972366148531951640e-1 * t117 * t119 * t5 / t425)";
  "res = t217 + t43 * ((t243 / (0.1e1 + 0.193e0 * t263) + 0.69644166666666666665e-2 * t191) / (0.1e1 + 0.18750000000000000000e0 * t206 - 0.40468750000000000000e-1 * t213) - t217) - s0 * t139 / tau0 * t279 * (t403 + t224 * ((t422 / (0.1e1 + 0.193e0 * t432) + 0.34822083333333333334e-2 * t385) / (0.1e1 + 0.18750000000000000000e0 * t396 - 0.40468750000000000000e-1 * t399) - t403)) / 0.8e1"]%b.

(* Generated by tools/gen_src.py: verbatim text of the prebuilt programs. *)
From Coq Require Import List.
From Verif Require Import Bytes.
Import ListNotations.

(* gen_repo/impl/prebuilt/pol/mgga_x_regtpss.py *)
Definition pol_mgga_x_regtpss : list bstr := [
  "t2 = 3 ** (0.1e1 / 0.3e1)";
  "t3 = math.pi ** (0.1e1 / 0.3e1)";
  "t5 = t2 / t3";
  "t6 = r0 + r1";
  "t7 = 0.1e1 / t6";
  "t10 = 0.2e1 * r0 * t7 <= p_a_zeta_threshold";
  "t11 = p_a_zeta_threshold - 0.1e1";
  "t14 = 0.2e1 * r1 * t7 <= p_a_zeta_threshold";
  "t15 = -t11";
  "t17 = (r0 - r1) * t7";
  "t18 = lax_cond(t14, t15, t17)";
  "t19 = lax_cond(t10, t11, t18)";
  "t20 = 0.1e1 + t19";
  "t22 = p_a_zeta_threshold ** (0.1e1 / 0.3e1)";
  "t23 = t22 * p_a_zeta_threshold";
  "t24 = t20 ** (0.1e1 / 0.3e1)";
  "t26 = lax_cond(t20 <= p_a_zeta_threshold, t23, t24 * t20)";
  "t27 = t6 ** (0.1e1 / 0.3e1)";
  "t33 = (s0 / r0 / tau0) ** 0.30e1";
  "t34 = s0 ** 2";
  "t35 = r0 ** 2";
  "t38 = tau0 ** 2";
  "t40 = t34 / t35 / t38";
  "t43 = (0.1e1 + t40 / 0.64e2) ** 2";
  "t48 = 6 ** (0.1e1 / 0.3e1)";
  "t50 = math.pi ** 2";
  "t51 = t50 ** (0.1e1 / 0.3e1)";
  "t52 = t51 ** 2";
  "t53 = 0.1e1 / t52";
  "t55 = r0 ** (0.1e1 / 0.3e1)";
  "t56 = t55 ** 2";
  "t58 = 0.1e1 / t56 / t35";
  "t65 = s0 * t58";
  "t67 = tau0 / t56 / r0 - t65 / 0.8e1";
  "t68 = t67 * t48";
  "t71 = 0.5e1 / 0.9e1 * t68 * t53 - 0.1e1";
  "t76 = math.sqrt(0.1e1 + 0.22222222222222222222e0 * t68 * t53 * t71)";
  "t80 = t48 * t53";
  "t81 = t80 * t65";
  "t82 = t81 / 0.36e2";
  "t83 = 0.9e1 / 0.20e2 * t71 / t76 + t82";
  "t84 = t83 ** 2";
  "t87 = t48 ** 2";
  "t89 = 0.1e1 / t51 / t50";
  "t90 = t87 * t89";
  "t91 = t35 ** 2";
  "t96 = t90 * t34 / t55 / t91 / r0";
  "t97 = 0.50e2 * t96";
  "t99 = math.sqrt(0.162e3 * t40 + t97)";
  "t102 = 0.32911784453572541028e-4 * t96";
  "t104 = t50 ** 2";
  "t105 = 0.1e1 / t104";
  "t108 = t91 ** 2";
  "t111 = 0.13171780538194444444e-3 * t105 * t34 * s0 / t108";
  "t115 = (0.1e1 + 0.61346278355378295562e-1 * t81) ** 2";
  "t116 = 0.1e1 / t115";
  "t120 = 0.646416e0 / (0.804e0 + ((0.10e2 / 0.81e2 + 0.45938270703125000000e-2 * t33 / t43) * t48 * t53 * s0 * t58 / 0.24e2 + 0.146e3 / 0.2025e4 * t84 - 0.73e2 / 0.97200e5 * t83 * t99 + t102 + 0.20448759451792765188e-2 * t40 + t111) * t116)";
  "t121 = -t71";
  "t122 = t121 ** 2";
  "t124 = t67 ** 2";
  "t128 = 0.1e1 + 0.67148919753086419753e0 * t124 * t87 * t89";
  "t129 = math.sqrt(t128)";
  "t134 = math.exp(-t81 / 0.8e1)";
  "t136 = -0.45000000000000000000e0 + t82";
  "t137 = t136 ** 2";
  "t140 = math.sqrt(0.10368e5 + t97)";
  "t155 = lax_cond(r0 <= p_a_dens_threshold, 0, -0.3e1 / 0.8e1 * t5 * t26 * t27 * (0.1804e1 - t120 + t122 * t121 / t129 / t128 * t134 * (-0.646416e0 / (0.804e0 + (0.29644443963477366255e-1 * t81 + 0.146e3 / 0.2025e4 * t137 - 0.73e2 / 0.97200e5 * t136 * t140 + t102 + 0.13087206049147369720e0 + t111) * t116) + t120)))";
  "t157 = lax_cond(t10, t15, -t17)";
  "t158 = lax_cond(t14, t11, t157)";
  "t159 = 0.1e1 + t158";
  "t161 = t159 ** (0.1e1 / 0.3e1)";
  "t163 = lax_cond(t159 <= p_a_zeta_threshold, t23, t161 * t159)";
  "t169 = (s2 / r1 / tau1) ** 0.30e1";
  "t170 = s2 ** 2";
  "t171 = r1 ** 2";
  "t174 = tau1 ** 2";
  "t176 = t170 / t171 / t174";
  "t179 = (0.1e1 + t176 / 0.64e2) ** 2";
  "t186 = r1 ** (0.1e1 / 0.3e1)";
  "t187 = t186 ** 2";
  "t189 = 0.1e1 / t187 / t171";
  "t196 = s2 * t189";
  "t198 = tau1 / t187 / r1 - t196 / 0.8e1";
  "t199 = t198 * t48";
  "t202 = 0.5e1 / 0.9e1 * t199 * t53 - 0.1e1";
  "t207 = math.sqrt(0.1e1 + 0.22222222222222222222e0 * t199 * t53 * t202)";
  "t211 = t80 * t196";
  "t212 = t211 / 0.36e2";
  "t213 = 0.9e1 / 0.20e2 * t202 / t207 + t212";
  "t214 = t213 ** 2";
  "t217 = t171 ** 2";
  "t222 = t90 * t170 / t186 / t217 / r1";
  "t223 = 0.50e2 * t222";
  "t225 = math.sqrt(0.162e3 * t176 + t223)";
  "t228 = 0.32911784453572541028e-4 * t222";
  "t232 = t217 ** 2";
  "t235 = 0.13171780538194444444e-3 * t105 * t170 * s2 / t232";
  "t239 = (0.1e1 + 0.61346278355378295562e-1 * t211) ** 2";
  "t240 = 0.1e1 / t239";
  "t244 = 0.646416e0 / (0.804e0 + ((0.10e2 / 0.81e2 + 0.45938270703125000000e-2 * t169 / t179) * t48 * t53 * s2 * t189 / 0.24e2 + 0.146e3 / 0.2025e4 * t214 - 0.73e2 / 0.97200e5 * t213 * t225 + t228 + 0.20448759451792765188e-2 * t176 + t235) * t240)";
  "t245 = -t202";
  "t246 = t245 ** 2";
  "t248 = t198 ** 2";
  "t252 = 0.1e1 + 0.67148919753086419753e0 * t248 * t87 * t89";
  "t253 = math.sqrt(t252)";
  "t258 = math.exp(-t211 / 0.8e1)";
  "t260 = -0.45000000000000000000e0 + t212";
  "t261 = t260 ** 2";
  "t264 = math.sqrt(0.10368e5 + t223)";
  "t279 = lax_cond(r1 <= p_a_dens_threshold, 0, -0.3e1 / 0.8e1 * t5 * t163 * t27 * (0.1804e1 - t244 + t246 * t245 / t253 / t252 * t258 * (-0.646416e0 / (0.804e0 + (0.29644443963477366255e-1 * t211 + 0.146e3 / 0.2025e4 * t261 - 0.73e2 / 0.97200e5 * t260 * t264 + t228 + 0.13087206049147369720e0 + t235) * t240) + t244)))";
  "res = t155 + t279"]%b.

(* gen_repo/impl/prebuilt/unpol/mgga_x_regtpss.py *)
Definition unpol_mgga_x_regtpss : list bstr := [
  "t3 = 3 ** (0.1e1 / 0.3e1)";
  "t4 = math.pi ** (0.1e1 / 0.3e1)";
  "t7 = 0.1e1 <= p_a_zeta_threshold";
  "t8 = p_a_zeta_threshold - 0.1e1";
  "t10 = lax_cond(t7, -t8, 0)";
  "t11 = lax_cond(t7, t8, t10)";
  "t12 = 0.1e1 + t11";
  "t14 = p_a_zeta_threshold ** (0.1e1 / 0.3e1)";
  "t16 = t12 ** (0.1e1 / 0.3e1)";
  "t18 = lax_cond(t12 <= p_a_zeta_threshold, t14 * p_a_zeta_threshold, t16 * t12)";
  "t19 = r0 ** (0.1e1 / 0.3e1)";
  "t25 = (s0 / r0 / tau0) ** 0.30e1";
  "t26 = s0 ** 2";
  "t27 = r0 ** 2";
  "t30 = tau0 ** 2";
  "t32 = t26 / t27 / t30";
  "t35 = (0.1e1 + t32 / 0.64e2) ** 2";
  "t40 = 6 ** (0.1e1 / 0.3e1)";
  "t42 = math.pi ** 2";
  "t43 = t42 ** (0.1e1 / 0.3e1)";
  "t44 = t43 ** 2";
  "t45 = 0.1e1 / t44";
  "t47 = 2 ** (0.1e1 / 0.3e1)";
  "t48 = t47 ** 2";
  "t50 = t19 ** 2";
  "t53 = s0 * t48 / t50 / t27";
  "t61 = tau0 * t48 / t50 / r0 - t53 / 0.8e1";
  "t62 = t61 * t40";
  "t65 = 0.5e1 / 0.9e1 * t62 * t45 - 0.1e1";
  "t70 = math.sqrt(0.1e1 + 0.22222222222222222222e0 * t62 * t45 * t65)";
  "t75 = t40 * t45 * t53";
  "t76 = t75 / 0.36e2";
  "t77 = 0.9e1 / 0.20e2 * t65 / t70 + t76";
  "t78 = t77 ** 2";
  "t81 = t40 ** 2";
  "t83 = 0.1e1 / t43 / t42";
  "t86 = t27 ** 2";
  "t91 = t81 * t83 * t26 * t47 / t19 / t86 / r0";
  "t94 = math.sqrt(0.162e3 * t32 + 0.100e3 * t91)";
  "t97 = 0.65823568907145082056e-4 * t91";
  "t99 = t42 ** 2";
  "t103 = t86 ** 2";
  "t106 = 0.52687122152777777776e-3 / t99 * t26 * s0 / t103";
  "t110 = (0.1e1 + 0.61346278355378295562e-1 * t75) ** 2";
  "t111 = 0.1e1 / t110";
  "t115 = 0.646416e0 / (0.804e0 + ((0.10e2 / 0.81e2 + 0.45938270703125000000e-2 * t25 / t35) * t40 * t45 * t53 / 0.24e2 + 0.146e3 / 0.2025e4 * t78 - 0.73e2 / 0.97200e5 * t77 * t94 + t97 + 0.20448759451792765188e-2 * t32 + t106) * t111)";
  "t116 = -t65";
  "t117 = t116 ** 2";
  "t119 = t61 ** 2";
  "t123 = 0.1e1 + 0.67148919753086419753e0 * t119 * t81 * t83";
  "t124 = math.sqrt(t123)";
  "t129 = math.exp(-t75 / 0.8e1)";
  "t131 = -0.45000000000000000000e0 + t76";
  "t132 = t131 ** 2";
  "t136 = math.sqrt(0.2592e4 + 0.25e2 * t91)";
  "t151 = lax_cond(r0 / 0.2e1 <= p_a_dens_threshold, 0, -0.3e1 / 0.8e1 * t3 / t4 * t18 * t19 * (0.1804e1 - t115 + t117 * t116 / t124 / t123 * t129 * (-0.646416e0 / (0.804e0 + (0.29644443963477366255e-1 * t75 + 0.146e3 / 0.2025e4 * t132 - 0.73e2 / 0.48600e5 * t131 * t136 + t97 + 0.13087206049147369720e0 + t106) * t111) + t115)))";
  "res = 0.2e1 * t151"]%b.

(* gen_repo/impl/prebuilt/pol/mgga_x_revtm.py *)
Definition pol_mgga_x_revtm : list bstr := [
  "t2 = 3 ** (0.1e1 / 0.3e1)";
  "t3 = math.pi ** (0.1e1 / 0.3e1)";
  "t5 = t2 / t3";
  "t6 = r0 + r1";
  "t7 = 0.1e1 / t6";
  "t10 = 0.2e1 * r0 * t7 <= p_a_zeta_threshold";
  "t11 = p_a_zeta_threshold - 0.1e1";
  "t14 = 0.2e1 * r1 * t7 <= p_a_zeta_threshold";
  "t15 = -t11";
  "t17 = (r0 - r1) * t7";
  "t18 = lax_cond(t14, t15, t17)";
  "t19 = lax_cond(t10, t11, t18)";
  "t20 = 0.1e1 + t19";
  "t22 = p_a_zeta_threshold ** (0.1e1 / 0.3e1)";
  "t23 = t22 * p_a_zeta_threshold";
  "t24 = t20 ** (0.1e1 / 0.3e1)";
  "t26 = lax_cond(t20 <= p_a_zeta_threshold, t23, t24 * t20)";
  "t27 = t6 ** (0.1e1 / 0.3e1)";
  "t33 = s0 / r0 / tau0 / 0.8e1";
  "t35 = lax_cond(t33 < 0.10e1, t33, 0.10e1)";
  "t36 = t35 ** 2";
  "t37 = t36 * t35";
  "t41 = (0.1e1 + t37) ** 2";
  "t43 = (t36 + 0.3e1 * t37) / t41";
  "t44 = 6 ** (0.1e1 / 0.3e1)";
  "t45 = math.pi ** 2";
  "t46 = t45 ** (0.1e1 / 0.3e1)";
  "t47 = t46 ** 2";
  "t48 = 0.1e1 / t47";
  "t49 = t44 * t48";
  "t50 = r0 ** 2";
  "t51 = r0 ** (0.1e1 / 0.3e1)";
  "t52 = t51 ** 2";
  "t54 = 0.1e1 / t52 / t50";
  "t55 = s0 * t54";
  "t56 = t49 * t55";
  "t58 = t44 ** 2";
  "t61 = t58 / t46 / t45";
  "t62 = s0 ** 2";
  "t63 = t50 ** 2";
  "t71 = (0.1e1 + 0.15045488888888888889e0 * t56 + 0.26899490462262948000e-2 * t61 * t62 / t51 / t63 / r0) ** (0.1e1 / 0.5e1)";
  "t76 = tau0 / t52 / r0";
  "t79 = 0.25633760400000000000e0 * t58 * t47";
  "t86 = t71 ** 2";
  "t102 = (t76 - t55 / 0.8e1) * t44";
  "t105 = 0.5e1 / 0.9e1 * t102 * t48 - 0.1e1";
  "t110 = math.sqrt(0.1e1 + 0.22222222222222222222e0 * t102 * t48 * t105)";
  "t115 = 0.9e1 / 0.20e2 * t105 / t110 + t56 / 0.36e2";
  "t116 = t115 ** 2";
  "t123 = (0.1e1 + 0.5e1 / 0.12e2 * (0.10e2 / 0.81e2 + 0.25e2 / 0.8748e4 * t56) * t44 * t48 * s0 * t54 + 0.292e3 / 0.405e3 * t116 - 0.146e3 / 0.135e3 * t115 * t35 * (0.1e1 - t35)) ** (0.1e1 / 0.10e2)";
  "t129 = lax_cond(r0 <= p_a_dens_threshold, 0, -0.3e1 / 0.8e1 * t5 * t26 * t27 * (t43 * (0.1e1 / t71 + 0.7e1 / 0.9e1 * (0.1e1 + 0.63943327777777777778e-1 * t56 - 0.5e1 / 0.9e1 * (0.14554132000000000000e0 * t76 + t79 + 0.11867481666666666667e-1 * t55) * t44 * t48) / t86) + (0.1e1 - t43) * t123))";
  "t131 = lax_cond(t10, t15, -t17)";
  "t132 = lax_cond(t14, t11, t131)";
  "t133 = 0.1e1 + t132";
  "t135 = t133 ** (0.1e1 / 0.3e1)";
  "t137 = lax_cond(t133 <= p_a_zeta_threshold, t23, t135 * t133)";
  "t143 = s2 / r1 / tau1 / 0.8e1";
  "t145 = lax_cond(t143 < 0.10e1, t143, 0.10e1)";
  "t146 = t145 ** 2";
  "t147 = t146 * t145";
  "t151 = (0.1e1 + t147) ** 2";
  "t153 = (t146 + 0.3e1 * t147) / t151";
  "t154 = r1 ** 2";
  "t155 = r1 ** (0.1e1 / 0.3e1)";
  "t156 = t155 ** 2";
  "t158 = 0.1e1 / t156 / t154";
  "t159 = s2 * t158";
  "t160 = t49 * t159";
  "t162 = s2 ** 2";
  "t163 = t154 ** 2";
  "t171 = (0.1e1 + 0.15045488888888888889e0 * t160 + 0.26899490462262948000e-2 * t61 * t162 / t155 / t163 / r1) ** (0.1e1 / 0.5e1)";
  "t176 = tau1 / t156 / r1";
  "t184 = t171 ** 2";
  "t200 = (t176 - t159 / 0.8e1) * t44";
  "t203 = 0.5e1 / 0.9e1 * t200 * t48 - 0.1e1";
  "t208 = math.sqrt(0.1e1 + 0.22222222222222222222e0 * t200 * t48 * t203)";
  "t213 = 0.9e1 / 0.20e2 * t203 / t208 + t160 / 0.36e2";
  "t214 = t213 ** 2";
  "t221 = (0.1e1 + 0.5e1 / 0.12e2 * (0.10e2 / 0.81e2 + 0.25e2 / 0.8748e4 * t160) * t44 * t48 * s2 * t158 + 0.292e3 / 0.405e3 * t214 - 0.146e3 / 0.135e3 * t213 * t145 * (0.1e1 - t145)) ** (0.1e1 / 0.10e2)";
  "t227 = lax_cond(r1 <= p_a_dens_threshold, 0, -0.3e1 / 0.8e1 * t5 * t137 * t27 * (t153 * (0.1e1 / t171 + 0.7e1 / 0.9e1 * (0.1e1 + 0.63943327777777777778e-1 * t160 - 0.5e1 / 0.9e1 * (0.14554132000000000000e0 * t176 + t79 + 0.11867481666666666667e-1 * t159) * t44 * t48) / t184) + (0.1e1 - t153) * t221))";
  "res = t129 + t227"]%b.

(* gen_repo/impl/prebuilt/unpol/mgga_x_revtm.py *)
Definition unpol_mgga_x_revtm : list bstr := [
  "t3 = 3 ** (0.1e1 / 0.3e1)";
  "t4 = math.pi ** (0.1e1 / 0.3e1)";
  "t7 = 0.1e1 <= p_a_zeta_threshold";
  "t8 = p_a_zeta_threshold - 0.1e1";
  "t10 = lax_cond(t7, -t8, 0)";
  "t11 = lax_cond(t7, t8, t10)";
  "t12 = 0.1e1 + t11";
  "t14 = p_a_zeta_threshold ** (0.1e1 / 0.3e1)";
  "t16 = t12 ** (0.1e1 / 0.3e1)";
  "t18 = lax_cond(t12 <= p_a_zeta_threshold, t14 * p_a_zeta_threshold, t16 * t12)";
  "t19 = r0 ** (0.1e1 / 0.3e1)";
  "t25 = s0 / r0 / tau0 / 0.8e1";
  "t27 = lax_cond(t25 < 0.10e1, t25, 0.10e1)";
  "t28 = t27 ** 2";
  "t29 = t28 * t27";
  "t33 = (0.1e1 + t29) ** 2";
  "t35 = (t28 + 0.3e1 * t29) / t33";
  "t36 = 6 ** (0.1e1 / 0.3e1)";
  "t37 = math.pi ** 2";
  "t38 = t37 ** (0.1e1 / 0.3e1)";
  "t39 = t38 ** 2";
  "t40 = 0.1e1 / t39";
  "t42 = 2 ** (0.1e1 / 0.3e1)";
  "t43 = t42 ** 2";
  "t45 = r0 ** 2";
  "t46 = t19 ** 2";
  "t49 = s0 * t43 / t46 / t45";
  "t50 = t36 * t40 * t49";
  "t52 = t36 ** 2";
  "t56 = s0 ** 2";
  "t58 = t45 ** 2";
  "t66 = (0.1e1 + 0.15045488888888888889e0 * t50 + 0.53798980924525896000e-2 * t52 / t38 / t37 * t56 * t42 / t19 / t58 / r0) ** (0.1e1 / 0.5e1)";
  "t72 = tau0 * t43 / t46 / r0";
  "t82 = t66 ** 2";
  "t97 = (t72 - t49 / 0.8e1) * t36";
  "t100 = 0.5e1 / 0.9e1 * t97 * t40 - 0.1e1";
  "t105 = math.sqrt(0.1e1 + 0.22222222222222222222e0 * t97 * t40 * t100)";
  "t110 = 0.9e1 / 0.20e2 * t100 / t105 + t50 / 0.36e2";
  "t111 = t110 ** 2";
  "t118 = (0.1e1 + 0.5e1 / 0.12e2 * (0.10e2 / 0.81e2 + 0.25e2 / 0.8748e4 * t50) * t36 * t40 * t49 + 0.292e3 / 0.405e3 * t111 - 0.146e3 / 0.135e3 * t110 * t27 * (0.1e1 - t27)) ** (0.1e1 / 0.10e2)";
  "t124 = lax_cond(r0 / 0.2e1 <= p_a_dens_threshold, 0, -0.3e1 / 0.8e1 * t3 / t4 * t18 * t19 * (t35 * (0.1e1 / t66 + 0.7e1 / 0.9e1 * (0.1e1 + 0.63943327777777777778e-1 * t50 - 0.5e1 / 0.9e1 * (0.14554132000000000000e0 * t72 + 0.25633760400000000000e0 * t52 * t39 + 0.11867481666666666667e-1 * t49) * t36 * t40) / t82) + (0.1e1 - t35) * t118))";
  "res = 0.2e1 * t124"]%b.

(* gen_repo/impl/prebuilt/pol/mgga_x_rlda.py *)
Definition pol_mgga_x_rlda : list bstr := [
  "t2 = math.pi ** (0.1e1 / 0.3e1)";
  "t3 = t2 ** 2";
  "t4 = r0 + r1";
  "t5 = 0.1e1 / t4";
  "t8 = 0.2e1 * r0 * t5 <= p_a_zeta_threshold";
  "t9 = p_a_zeta_threshold - 0.1e1";
  "t12 = 0.2e1 * r1 * t5 <= p_a_zeta_threshold";
  "t13 = -t9";
  "t15 = (r0 - r1) * t5";
  "t16 = lax_cond(t12, t13, t15)";
  "t17 = lax_cond(t8, t9, t16)";
  "t18 = 0.1e1 + t17";
  "t20 = p_a_zeta_threshold ** (0.1e1 / 0.3e1)";
  "t21 = t20 * p_a_zeta_threshold";
  "t22 = t18 ** (0.1e1 / 0.3e1)";
  "t24 = lax_cond(t18 <= p_a_zeta_threshold, t21, t22 * t18)";
  "t26 = t4 ** (0.1e1 / 0.3e1)";
  "t29 = (0.1e1 / math.pi) ** (0.1e1 / 0.3e1)";
  "t31 = params_a_prefactor / t29";
  "t32 = 4 ** (0.1e1 / 0.3e1)";
  "t33 = r0 ** (0.1e1 / 0.3e1)";
  "t34 = t33 ** 2";
  "t36 = 0.1e1 / t34 / r0";
  "t47 = lax_cond(r0 <= p_a_dens_threshold, 0, -0.15e2 / 0.16e2 * t3 * t24 * t26 * t31 * t32 / (0.2e1 * tau0 * t36 - l0 * t36 / 0.4e1))";
  "t49 = lax_cond(t8, t13, -t15)";
  "t50 = lax_cond(t12, t9, t49)";
  "t51 = 0.1e1 + t50";
  "t53 = t51 ** (0.1e1 / 0.3e1)";
  "t55 = lax_cond(t51 <= p_a_zeta_threshold, t21, t53 * t51)";
  "t58 = r1 ** (0.1e1 / 0.3e1)";
  "t59 = t58 ** 2";
  "t61 = 0.1e1 / t59 / r1";
  "t72 = lax_cond(r1 <= p_a_dens_threshold, 0, -0.15e2 / 0.16e2 * t3 * t55 * t26 * t31 * t32 / (0.2e1 * tau1 * t61 - l1 * t61 / 0.4e1))";
  "res = t47 + t72"]%b.

(* gen_repo/impl/prebuilt/unpol/mgga_x_rlda.py *)
Definition unpol_mgga_x_rlda : list bstr := [
  "t3 = math.pi ** (0.1e1 / 0.3e1)";
  "t4 = t3 ** 2";
  "t5 = 0.1e1 <= p_a_zeta_threshold";
  "t6 = p_a_zeta_threshold - 0.1e1";
  "t8 = lax_cond(t5, -t6, 0)";
  "t9 = lax_cond(t5, t6, t8)";
  "t10 = 0.1e1 + t9";
  "t12 = p_a_zeta_threshold ** (0.1e1 / 0.3e1)";
  "t14 = t10 ** (0.1e1 / 0.3e1)";
  "t16 = lax_cond(t10 <= p_a_zeta_threshold, t12 * p_a_zeta_threshold, t14 * t10)";
  "t18 = r0 ** (0.1e1 / 0.3e1)";
  "t21 = (0.1e1 / math.pi) ** (0.1e1 / 0.3e1)";
  "t24 = 4 ** (0.1e1 / 0.3e1)";
  "t25 = 2 ** (0.1e1 / 0.3e1)";
  "t26 = t25 ** 2";
  "t28 = t18 ** 2";
  "t30 = 0.1e1 / t28 / r0";
  "t42 = lax_cond(r0 / 0.2e1 <= p_a_dens_threshold, 0, -0.15e2 / 0.16e2 * t4 * t16 * t18 * params_a_prefactor / t21 * t24 / (0.2e1 * tau0 * t26 * t30 - l0 * t26 * t30 / 0.4e1))";
  "res = 0.2e1 * t42"]%b.

(* gen_repo/impl/prebuilt/pol/mgga_x_rppscan.py *)
Definition pol_mgga_x_rppscan : list bstr := [
  "t2 = 3 ** (0.1e1 / 0.3e1)";
  "t3 = math.pi ** (0.1e1 / 0.3e1)";
  "t5 = t2 / t3";
  "t6 = r0 + r1";
  "t7 = 0.1e1 / t6";
  "t10 = 0.2e1 * r0 * t7 <= p_a_zeta_threshold";
  "t11 = p_a_zeta_threshold - 0.1e1";
  "t14 = 0.2e1 * r1 * t7 <= p_a_zeta_threshold";
  "t15 = -t11";
  "t17 = (r0 - r1) * t7";
  "t18 = lax_cond(t14, t15, t17)";
  "t19 = lax_cond(t10, t11, t18)";
  "t20 = 0.1e1 + t19";
  "t22 = p_a_zeta_threshold ** (0.1e1 / 0.3e1)";
  "t23 = t22 * p_a_zeta_threshold";
  "t24 = t20 ** (0.1e1 / 0.3e1)";
  "t26 = lax_cond(t20 <= p_a_zeta_threshold, t23, t24 * t20)";
  "t28 = t6 ** (0.1e1 / 0.3e1)";
  "t29 = 6 ** (0.1e1 / 0.3e1)";
  "t30 = math.pi ** 2";
  "t31 = t30 ** (0.1e1 / 0.3e1)";
  "t32 = t31 ** 2";
  "t33 = 0.1e1 / t32";
  "t34 = t29 * t33";
  "t35 = r0 ** 2";
  "t36 = r0 ** (0.1e1 / 0.3e1)";
  "t37 = t36 ** 2";
  "t39 = 0.1e1 / t37 / t35";
  "t40 = s0 * t39";
  "t45 = 0.100e3 / 0.6561e4 / params_a_k1 - 0.73e2 / 0.648e3";
  "t46 = t29 ** 2";
  "t50 = t45 * t46 / t31 / t30";
  "t51 = s0 ** 2";
  "t52 = t35 ** 2";
  "t57 = t45 * t29";
  "t59 = t33 * s0 * t39";
  "t62 = math.exp(-0.27e2 / 0.80e2 * t57 * t59)";
  "t66 = math.sqrt(0.146e3)";
  "t67 = t66 * t29";
  "t76 = 0.3e1 / 0.10e2 * t46 * t32";
  "t82 = (tau0 / t37 / r0 - t40 / 0.8e1) / (t76 + params_a_eta * s0 * t39 / 0.8e1)";
  "t83 = 0.1e1 - t82";
  "t85 = t83 ** 2";
  "t87 = math.exp(-t85 / 0.2e1)";
  "t91 = (0.7e1 / 0.12960e5 * t67 * t59 + t66 * t83 * t87 / 0.100e3) ** 2";
  "t99 = 0.25e1 < t82";
  "t100 = lax_cond(t99, 0.25e1, t82)";
  "t102 = t100 ** 2";
  "t104 = t102 * t100";
  "t106 = t102 ** 2";
  "t115 = lax_cond(t99, t82, 0.25e1)";
  "t119 = math.exp(params_a_c2 / (0.1e1 - t115))";
  "t121 = lax_cond(t82 <= 0.25e1, 0.1e1 - 0.667e0 * t100 - 0.4445555e0 * t102 - 0.663086601049e0 * t104 + 0.1451297044490e1 * t106 - 0.887998041597e0 * t106 * t100 + 0.234528941479e0 * t106 * t102 - 0.23185843322e-1 * t106 * t104, -params_a_d * t119)";
  "t127 = math.sqrt(0.3e1)";
  "t129 = t46 / t31";
  "t130 = math.sqrt(s0)";
  "t135 = math.sqrt(t129 * t130 / t36 / r0)";
  "t139 = math.exp(-0.98958000000000000000e1 * t127 / t135)";
  "t144 = lax_cond(r0 <= p_a_dens_threshold, 0, -0.3e1 / 0.8e1 * t5 * t26 * t28 * ((0.1e1 + params_a_k1 * (0.1e1 - params_a_k1 / (params_a_k1 + 0.5e1 / 0.972e3 * t34 * t40 + t50 * t51 / t36 / t52 / r0 * t62 / 0.576e3 + t91))) * (0.1e1 - t121) + 0.1174e1 * t121) * (0.1e1 - t139))";
  "t146 = lax_cond(t10, t15, -t17)";
  "t147 = lax_cond(t14, t11, t146)";
  "t148 = 0.1e1 + t147";
  "t150 = t148 ** (0.1e1 / 0.3e1)";
  "t152 = lax_cond(t148 <= p_a_zeta_threshold, t23, t150 * t148)";
  "t154 = r1 ** 2";
  "t155 = r1 ** (0.1e1 / 0.3e1)";
  "t156 = t155 ** 2";
  "t158 = 0.1e1 / t156 / t154";
  "t159 = s2 * t158";
  "t162 = s2 ** 2";
  "t163 = t154 ** 2";
  "t169 = t33 * s2 * t158";
  "t172 = math.exp(-0.27e2 / 0.80e2 * t57 * t169)";
  "t188 = (tau1 / t156 / r1 - t159 / 0.8e1) / (t76 + params_a_eta * s2 * t158 / 0.8e1)";
  "t189 = 0.1e1 - t188";
  "t191 = t189 ** 2";
  "t193 = math.exp(-t191 / 0.2e1)";
  "t197 = (0.7e1 / 0.12960e5 * t67 * t169 + t66 * t189 * t193 / 0.100e3) ** 2";
  "t205 = 0.25e1 < t188";
  "t206 = lax_cond(t205, 0.25e1, t188)";
  "t208 = t206 ** 2";
  "t210 = t208 * t206";
  "t212 = t208 ** 2";
  "t221 = lax_cond(t205, t188, 0.25e1)";
  "t225 = math.exp(params_a_c2 / (0.1e1 - t221))";
  "t227 = lax_cond(t188 <= 0.25e1, 0.1e1 - 0.667e0 * t206 - 0.4445555e0 * t208 - 0.663086601049e0 * t210 + 0.1451297044490e1 * t212 - 0.887998041597e0 * t212 * t206 + 0.234528941479e0 * t212 * t208 - 0.23185843322e-1 * t212 * t210, -params_a_d * t225)";
  "t233 = math.sqrt(s2)";
  "t238 = math.sqrt(t129 * t233 / t155 / r1)";
  "t242 = math.exp(-0.98958000000000000000e1 * t127 / t238)";
  "t247 = lax_cond(r1 <= p_a_dens_threshold, 0, -0.3e1 / 0.8e1 * t5 * t152 * t28 * ((0.1e1 + params_a_k1 * (0.1e1 - params_a_k1 / (params_a_k1 + 0.5e1 / 0.972e3 * t34 * t159 + t50 * t162 / t155 / t163 / r1 * t172 / 0.576e3 + t197))) * (0.1e1 - t227) + 0.1174e1 * t227) * (0.1e1 - t242))";
  "res = t144 + t247"]%b.

(* gen_repo/impl/prebuilt/unpol/mgga_x_rppscan.py *)
Definition unpol_mgga_x_rppscan : list bstr := [
  "t3 = 3 ** (0.1e1 / 0.3e1)";
  "t4 = math.pi ** (0.1e1 / 0.3e1)";
  "t7 = 0.1e1 <= p_a_zeta_threshold";
  "t8 = p_a_zeta_threshold - 0.1e1";
  "t10 = lax_cond(t7, -t8, 0)";
  "t11 = lax_cond(t7, t8, t10)";
  "t12 = 0.1e1 + t11";
  "t14 = p_a_zeta_threshold ** (0.1e1 / 0.3e1)";
  "t16 = t12 ** (0.1e1 / 0.3e1)";
  "t18 = lax_cond(t12 <= p_a_zeta_threshold, t14 * p_a_zeta_threshold, t16 * t12)";
  "t20 = r0 ** (0.1e1 / 0.3e1)";
  "t21 = 6 ** (0.1e1 / 0.3e1)";
  "t22 = math.pi ** 2";
  "t23 = t22 ** (0.1e1 / 0.3e1)";
  "t24 = t23 ** 2";
  "t25 = 0.1e1 / t24";
  "t27 = 2 ** (0.1e1 / 0.3e1)";
  "t28 = t27 ** 2";
  "t30 = r0 ** 2";
  "t31 = t20 ** 2";
  "t33 = 0.1e1 / t31 / t30";
  "t34 = s0 * t28 * t33";
  "t39 = 0.100e3 / 0.6561e4 / params_a_k1 - 0.73e2 / 0.648e3";
  "t40 = t21 ** 2";
  "t45 = s0 ** 2";
  "t47 = t30 ** 2";
  "t55 = math.exp(-0.27e2 / 0.80e2 * t39 * t21 * t25 * t34)";
  "t60 = math.sqrt(0.146e3)";
  "t79 = (tau0 * t28 / t31 / r0 - t34 / 0.8e1) / (0.3e1 / 0.10e2 * t40 * t24 + params_a_eta * s0 * t28 * t33 / 0.8e1)";
  "t80 = 0.1e1 - t79";
  "t82 = t80 ** 2";
  "t84 = math.exp(-t82 / 0.2e1)";
  "t88 = (0.7e1 / 0.12960e5 * t60 * t21 * t25 * t34 + t60 * t80 * t84 / 0.100e3) ** 2";
  "t96 = 0.25e1 < t79";
  "t97 = lax_cond(t96, 0.25e1, t79)";
  "t99 = t97 ** 2";
  "t101 = t99 * t97";
  "t103 = t99 ** 2";
  "t112 = lax_cond(t96, t79, 0.25e1)";
  "t116 = math.exp(params_a_c2 / (0.1e1 - t112))";
  "t118 = lax_cond(t79 <= 0.25e1, 0.1e1 - 0.667e0 * t97 - 0.4445555e0 * t99 - 0.663086601049e0 * t101 + 0.1451297044490e1 * t103 - 0.887998041597e0 * t103 * t97 + 0.234528941479e0 * t103 * t99 - 0.23185843322e-1 * t103 * t101, -params_a_d * t116)";
  "t124 = math.sqrt(0.3e1)";
  "t127 = math.sqrt(s0)";
  "t133 = math.sqrt(t40 / t23 * t127 * t27 / t20 / r0)";
  "t137 = math.exp(-0.98958000000000000000e1 * t124 / t133)";
  "t142 = lax_cond(r0 / 0.2e1 <= p_a_dens_threshold, 0, -0.3e1 / 0.8e1 * t3 / t4 * t18 * t20 * ((0.1e1 + params_a_k1 * (0.1e1 - params_a_k1 / (params_a_k1 + 0.5e1 / 0.972e3 * t21 * t25 * t34 + t39 * t40 / t23 / t22 * t45 * t27 / t20 / t47 / r0 * t55 / 0.288e3 + t88))) * (0.1e1 - t118) + 0.1174e1 * t118) * (0.1e1 - t137))";
  "res = 0.2e1 * t142"]%b.

(* gen_repo/impl/prebuilt/pol/mgga_x_rscan.py *)
Definition pol_mgga_x_rscan : list bstr := [
  "t2 = 3 ** (0.1e1 / 0.3e1)";
  "t3 = math.pi ** (0.1e1 / 0.3e1)";
  "t5 = t2 / t3";
  "t6 = r0 + r1";
  "t7 = 0.1e1 / t6";
  "t10 = 0.2e1 * r0 * t7 <= p_a_zeta_threshold";
  "t11 = p_a_zeta_threshold - 0.1e1";
  "t14 = 0.2e1 * r1 * t7 <= p_a_zeta_threshold";
  "t15 = -t11";
  "t17 = (r0 - r1) * t7";
  "t18 = lax_cond(t14, t15, t17)";
  "t19 = lax_cond(t10, t11, t18)";
  "t20 = 0.1e1 + t19";
  "t22 = p_a_zeta_threshold ** (0.1e1 / 0.3e1)";
  "t23 = t22 * p_a_zeta_threshold";
  "t24 = t20 ** (0.1e1 / 0.3e1)";
  "t26 = lax_cond(t20 <= p_a_zeta_threshold, t23, t24 * t20)";
  "t28 = t6 ** (0.1e1 / 0.3e1)";
  "t29 = 6 ** (0.1e1 / 0.3e1)";
  "t30 = math.pi ** 2";
  "t31 = t30 ** (0.1e1 / 0.3e1)";
  "t32 = t31 ** 2";
  "t33 = 0.1e1 / t32";
  "t34 = t29 * t33";
  "t35 = r0 ** 2";
  "t36 = r0 ** (0.1e1 / 0.3e1)";
  "t37 = t36 ** 2";
  "t39 = 0.1e1 / t37 / t35";
  "t40 = s0 * t39";
  "t45 = 0.100e3 / 0.6561e4 / params_a_k1 - 0.73e2 / 0.648e3";
  "t46 = t29 ** 2";
  "t50 = t45 * t46 / t31 / t30";
  "t51 = s0 ** 2";
  "t52 = t35 ** 2";
  "t57 = t45 * t29";
  "t59 = t33 * s0 * t39";
  "t62 = math.exp(-0.27e2 / 0.80e2 * t57 * t59)";
  "t66 = math.sqrt(0.146e3)";
  "t67 = t66 * t29";
  "t70 = t20 ** 2";
  "t71 = t70 ** 2";
  "t73 = t6 ** 2";
  "t74 = t73 ** 2";
  "t75 = t74 * t6";
  "t81 = tau0 / t37 / r0 - t40 / 0.8e1";
  "t83 = lax_cond(0.0e0 < t81, t81, 0)";
  "t84 = t83 ** 2";
  "t86 = 2 ** (0.1e1 / 0.3e1)";
  "t87 = t20 * t6";
  "t88 = t87 ** (0.1e1 / 0.3e1)";
  "t89 = t88 ** 2";
  "t92 = t46 * t32";
  "t95 = params_a_taur / 0.2e1";
  "t96 = 0.3e1 / 0.40e2 * t86 * t89 * t87 * t92 + t95";
  "t97 = t96 ** 2";
  "t101 = t86 ** 2";
  "t103 = t73 * t6";
  "t115 = t71 * t20 * t75 * t84 * t83 / t97 / t96 / (t101 * t88 * t70 * t20 * t103 * t84 / t97 / 0.16e2 + params_a_alphar) / 0.32e2";
  "t116 = 0.1e1 - t115";
  "t118 = t116 ** 2";
  "t120 = math.exp(-t118 / 0.2e1)";
  "t124 = (0.7e1 / 0.12960e5 * t67 * t59 + t66 * t116 * t120 / 0.100e3) ** 2";
  "t132 = 0.25e1 < t115";
  "t133 = lax_cond(t132, 0.25e1, t115)";
  "t135 = t133 ** 2";
  "t137 = t135 * t133";
  "t139 = t135 ** 2";
  "t148 = lax_cond(t132, t115, 0.25e1)";
  "t152 = math.exp(params_a_c2 / (0.1e1 - t148))";
  "t154 = lax_cond(t115 <= 0.25e1, 0.1e1 - 0.667e0 * t133 - 0.4445555e0 * t135 - 0.663086601049e0 * t137 + 0.1451297044490e1 * t139 - 0.887998041597e0 * t139 * t133 + 0.234528941479e0 * t139 * t135 - 0.23185843322e-1 * t139 * t137, -params_a_d * t152)";
  "t160 = math.sqrt(0.3e1)";
  "t162 = t46 / t31";
  "t163 = math.sqrt(s0)";
  "t168 = math.sqrt(t162 * t163 / t36 / r0)";
  "t172 = math.exp(-0.98958000000000000000e1 * t160 / t168)";
  "t177 = lax_cond(r0 <= p_a_dens_threshold, 0, -0.3e1 / 0.8e1 * t5 * t26 * t28 * ((0.1e1 + params_a_k1 * (0.1e1 - params_a_k1 / (params_a_k1 + 0.5e1 / 0.972e3 * t34 * t40 + t50 * t51 / t36 / t52 / r0 * t62 / 0.576e3 + t124))) * (0.1e1 - t154) + 0.1174e1 * t154) * (0.1e1 - t172))";
  "t179 = lax_cond(t10, t15, -t17)";
  "t180 = lax_cond(t14, t11, t179)";
  "t181 = 0.1e1 + t180";
  "t183 = t181 ** (0.1e1 / 0.3e1)";
  "t185 = lax_cond(t181 <= p_a_zeta_threshold, t23, t183 * t181)";
  "t187 = r1 ** 2";
  "t188 = r1 ** (0.1e1 / 0.3e1)";
  "t189 = t188 ** 2";
  "t191 = 0.1e1 / t189 / t187";
  "t192 = s2 * t191";
  "t195 = s2 ** 2";
  "t196 = t187 ** 2";
  "t202 = t33 * s2 * t191";
  "t205 = math.exp(-0.27e2 / 0.80e2 * t57 * t202)";
  "t211 = t181 ** 2";
  "t212 = t211 ** 2";
  "t219 = tau1 / t189 / r1 - t192 / 0.8e1";
  "t221 = lax_cond(0.0e0 < t219, t219, 0)";
  "t222 = t221 ** 2";
  "t224 = t181 * t6";
  "t225 = t224 ** (0.1e1 / 0.3e1)";
  "t226 = t225 ** 2";
  "t231 = 0.3e1 / 0.40e2 * t86 * t226 * t224 * t92 + t95";
  "t232 = t231 ** 2";
  "t248 = t212 * t181 * t75 * t222 * t221 / t232 / t231 / (t101 * t225 * t211 * t181 * t103 * t222 / t232 / 0.16e2 + params_a_alphar) / 0.32e2";
  "t249 = 0.1e1 - t248";
  "t251 = t249 ** 2";
  "t253 = math.exp(-t251 / 0.2e1)";
  "t257 = (0.7e1 / 0.12960e5 * t67 * t202 + t66 * t249 * t253 / 0.100e3) ** 2";
  "t265 = 0.25e1 < t248";
  "t266 = lax_cond(t265, 0.25e1, t248)";
  "t268 = t266 ** 2";
  "t270 = t268 * t266";
  "t272 = t268 ** 2";
  "t281 = lax_cond(t265, t248, 0.25e1)";
  "t285 = math.exp(params_a_c2 / (0.1e1 - t281))";
  "t287 = lax_cond(t248 <= 0.25e1, 0.1e1 - 0.667e0 * t266 - 0.4445555e0 * t268 - 0.663086601049e0 * t270 + 0.1451297044490e1 * t272 - 0.887998041597e0 * t272 * t266 + 0.234528941479e0 * t272 * t268 - 0.23185843322e-1 * t272 * t270, -params_a_d * t285)";
  "t293 = math.sqrt(s2)";
  "t298 = math.sqrt(t162 * t293 / t188 / r1)";
  "t302 = math.exp(-0.98958000000000000000e1 * t160 / t298)";
  "t307 = lax_cond(r1 <= p_a_dens_threshold, 0, -0.3e1 / 0.8e1 * t5 * t185 * t28 * ((0.1e1 + params_a_k1 * (0.1e1 - params_a_k1 / (params_a_k1 + 0.5e1 / 0.972e3 * t34 * t192 + t50 * t195 / t188 / t196 / r1 * t205 / 0.576e3 + t257))) * (0.1e1 - t287) + 0.1174e1 * t287) * (0.1e1 - t302))";
  "res = t177 + t307"]%b.

(* gen_repo/impl/prebuilt/unpol/mgga_x_rscan.py *)
Definition unpol_mgga_x_rscan : list bstr := [
  "t3 = 3 ** (0.1e1 / 0.3e1)";
  "t4 = math.pi ** (0.1e1 / 0.3e1)";
  "t7 = 0.1e1 <= p_a_zeta_threshold";
  "t8 = p_a_zeta_threshold - 0.1e1";
  "t10 = lax_cond(t7, -t8, 0)";
  "t11 = lax_cond(t7, t8, t10)";
  "t12 = 0.1e1 + t11";
  "t14 = p_a_zeta_threshold ** (0.1e1 / 0.3e1)";
  "t16 = t12 ** (0.1e1 / 0.3e1)";
  "t18 = lax_cond(t12 <= p_a_zeta_threshold, t14 * p_a_zeta_threshold, t16 * t12)";
  "t20 = r0 ** (0.1e1 / 0.3e1)";
  "t21 = 6 ** (0.1e1 / 0.3e1)";
  "t22 = math.pi ** 2";
  "t23 = t22 ** (0.1e1 / 0.3e1)";
  "t24 = t23 ** 2";
  "t25 = 0.1e1 / t24";
  "t27 = 2 ** (0.1e1 / 0.3e1)";
  "t28 = t27 ** 2";
  "t30 = r0 ** 2";
  "t31 = t20 ** 2";
  "t34 = s0 * t28 / t31 / t30";
  "t39 = 0.100e3 / 0.6561e4 / params_a_k1 - 0.73e2 / 0.648e3";
  "t40 = t21 ** 2";
  "t45 = s0 ** 2";
  "t47 = t30 ** 2";
  "t48 = t47 * r0";
  "t55 = math.exp(-0.27e2 / 0.80e2 * t39 * t21 * t25 * t34)";
  "t60 = math.sqrt(0.146e3)";
  "t65 = t12 ** 2";
  "t66 = t65 ** 2";
  "t74 = tau0 * t28 / t31 / r0 - t34 / 0.8e1";
  "t76 = lax_cond(0.0e0 < t74, t74, 0)";
  "t77 = t76 ** 2";
  "t79 = t12 * r0";
  "t80 = t79 ** (0.1e1 / 0.3e1)";
  "t81 = t80 ** 2";
  "t88 = 0.3e1 / 0.40e2 * t27 * t81 * t79 * t40 * t24 + params_a_taur / 0.2e1";
  "t89 = t88 ** 2";
  "t106 = t66 * t12 * t48 * t77 * t76 / t89 / t88 / (t28 * t80 * t65 * t12 * t30 * r0 * t77 / t89 / 0.16e2 + params_a_alphar) / 0.32e2";
  "t107 = 0.1e1 - t106";
  "t109 = t107 ** 2";
  "t111 = math.exp(-t109 / 0.2e1)";
  "t115 = (0.7e1 / 0.12960e5 * t60 * t21 * t25 * t34 + t60 * t107 * t111 / 0.100e3) ** 2";
  "t123 = 0.25e1 < t106";
  "t124 = lax_cond(t123, 0.25e1, t106)";
  "t126 = t124 ** 2";
  "t128 = t126 * t124";
  "t130 = t126 ** 2";
  "t139 = lax_cond(t123, t106, 0.25e1)";
  "t143 = math.exp(params_a_c2 / (0.1e1 - t139))";
  "t145 = lax_cond(t106 <= 0.25e1, 0.1e1 - 0.667e0 * t124 - 0.4445555e0 * t126 - 0.663086601049e0 * t128 + 0.1451297044490e1 * t130 - 0.887998041597e0 * t130 * t124 + 0.234528941479e0 * t130 * t126 - 0.23185843322e-1 * t130 * t128, -params_a_d * t143)";
  "t151 = math.sqrt(0.3e1)";
  "t154 = math.sqrt(s0)";
  "t160 = math.sqrt(t40 / t23 * t154 * t27 / t20 / r0)";
  "t164 = math.exp(-0.98958000000000000000e1 * t151 / t160)";
  "t169 = lax_cond(r0 / 0.2e1 <= p_a_dens_threshold, 0, -0.3e1 / 0.8e1 * t3 / t4 * t18 * t20 * ((0.1e1 + params_a_k1 * (0.1e1 - params_a_k1 / (params_a_k1 + 0.5e1 / 0.972e3 * t21 * t25 * t34 + t39 * t40 / t23 / t22 * t45 * t27 / t20 / t48 * t55 / 0.288e3 + t115))) * (0.1e1 - t145) + 0.1174e1 * t145) * (0.1e1 - t164))";
  "res = 0.2e1 * t169"]%b.

(* gen_repo/impl/prebuilt/pol/mgga_x_rtpss.py *)
Definition pol_mgga_x_rtpss : list bstr := [
  "t2 = 3 ** (0.1e1 / 0.3e1)";
  "t3 = math.pi ** (0.1e1 / 0.3e1)";
  "t5 = t2 / t3";
  "t6 = r0 + r1";
  "t7 = 0.1e1 / t6";
  "t10 = 0.2e1 * r0 * t7 <= p_a_zeta_threshold";
  "t11 = p_a_zeta_threshold - 0.1e1";
  "t14 = 0.2e1 * r1 * t7 <= p_a_zeta_threshold";
  "t15 = -t11";
  "t17 = (r0 - r1) * t7";
  "t18 = lax_cond(t14, t15, t17)";
  "t19 = lax_cond(t10, t11, t18)";
  "t20 = 0.1e1 + t19";
  "t22 = p_a_zeta_threshold ** (0.1e1 / 0.3e1)";
  "t23 = t22 * p_a_zeta_threshold";
  "t24 = t20 ** (0.1e1 / 0.3e1)";
  "t26 = lax_cond(t20 <= p_a_zeta_threshold, t23, t24 * t20)";
  "t27 = t6 ** (0.1e1 / 0.3e1)";
  "t29 = s0 ** 2";
  "t31 = r0 ** 2";
  "t32 = 0.1e1 / t31";
  "t33 = tau0 ** 2";
  "t34 = 0.1e1 / t33";
  "t35 = t32 * t34";
  "t37 = t29 * t32 * t34";
  "t40 = (0.1e1 + t37 / 0.64e2) ** 2";
  "t46 = 6 ** (0.1e1 / 0.3e1)";
  "t48 = math.pi ** 2";
  "t49 = t48 ** (0.1e1 / 0.3e1)";
  "t50 = t49 ** 2";
  "t51 = 0.1e1 / t50";
  "t53 = r0 ** (0.1e1 / 0.3e1)";
  "t54 = t53 ** 2";
  "t56 = 0.1e1 / t54 / t31";
  "t57 = t51 * s0 * t56";
  "t63 = s0 * t56";
  "t65 = tau0 / t54 / r0 - t63 / 0.8e1";
  "t69 = 0.5e1 / 0.9e1 * t65 * t46 * t51 - 0.1e1";
  "t71 = t46 * t51";
  "t76 = math.sqrt(0.5e1 * params_a_b * t65 * t71 * t69 + 0.9e1)";
  "t82 = 0.27e2 / 0.20e2 * t69 / t76 + t71 * t63 / 0.36e2";
  "t83 = t82 ** 2";
  "t86 = t46 ** 2";
  "t88 = 0.1e1 / t49 / t48";
  "t89 = t86 * t88";
  "t90 = t31 ** 2";
  "t93 = 0.1e1 / t53 / t90 / r0";
  "t98 = math.sqrt(0.50e2 * t89 * t29 * t93 + 0.162e3 * t37)";
  "t101 = 0.1e1 / params_a_kappa";
  "t102 = t101 * t86";
  "t107 = math.sqrt(params_a_e)";
  "t111 = params_a_e * params_a_mu";
  "t112 = t48 ** 2";
  "t113 = 0.1e1 / t112";
  "t116 = t90 ** 2";
  "t122 = t107 * t46";
  "t126 = (0.1e1 + t122 * t57 / 0.24e2) ** 2";
  "t130 = math.exp(-((0.10e2 / 0.81e2 + params_a_c * t29 * t35 / t40 / 0.64e2) * t46 * t57 / 0.24e2 + 0.146e3 / 0.2025e4 * t83 - 0.73e2 / 0.97200e5 * t82 * t98 + 0.25e2 / 0.944784e6 * t102 * t88 * t29 * t93 + t107 * t29 * t35 / 0.720e3 + t111 * t113 * t29 * s0 / t116 / 0.2304e4) / t126 * t101)";
  "t137 = lax_cond(r0 <= p_a_dens_threshold, 0, -0.3e1 / 0.8e1 * t5 * t26 * t27 * (0.1e1 + params_a_kappa * (0.1e1 - t130)))";
  "t139 = lax_cond(t10, t15, -t17)";
  "t140 = lax_cond(t14, t11, t139)";
  "t141 = 0.1e1 + t140";
  "t143 = t141 ** (0.1e1 / 0.3e1)";
  "t145 = lax_cond(t141 <= p_a_zeta_threshold, t23, t143 * t141)";
  "t147 = s2 ** 2";
  "t149 = r1 ** 2";
  "t150 = 0.1e1 / t149";
  "t151 = tau1 ** 2";
  "t152 = 0.1e1 / t151";
  "t153 = t150 * t152";
  "t155 = t147 * t150 * t152";
  "t158 = (0.1e1 + t155 / 0.64e2) ** 2";
  "t166 = r1 ** (0.1e1 / 0.3e1)";
  "t167 = t166 ** 2";
  "t169 = 0.1e1 / t167 / t149";
  "t170 = t51 * s2 * t169";
  "t176 = s2 * t169";
  "t178 = tau1 / t167 / r1 - t176 / 0.8e1";
  "t182 = 0.5e1 / 0.9e1 * t178 * t46 * t51 - 0.1e1";
  "t188 = math.sqrt(0.5e1 * params_a_b * t178 * t71 * t182 + 0.9e1)";
  "t194 = 0.27e2 / 0.20e2 * t182 / t188 + t71 * t176 / 0.36e2";
  "t195 = t194 ** 2";
  "t198 = t149 ** 2";
  "t201 = 0.1e1 / t166 / t198 / r1";
  "t206 = math.sqrt(0.50e2 * t89 * t147 * t201 + 0.162e3 * t155)";
  "t218 = t198 ** 2";
  "t227 = (0.1e1 + t122 * t170 / 0.24e2) ** 2";
  "t231 = math.exp(-((0.10e2 / 0.81e2 + params_a_c * t147 * t153 / t158 / 0.64e2) * t46 * t170 / 0.24e2 + 0.146e3 / 0.2025e4 * t195 - 0.73e2 / 0.97200e5 * t194 * t206 + 0.25e2 / 0.944784e6 * t102 * t88 * t147 * t201 + t107 * t147 * t153 / 0.720e3 + t111 * t113 * t147 * s2 / t218 / 0.2304e4) / t227 * t101)";
  "t238 = lax_cond(r1 <= p_a_dens_threshold, 0, -0.3e1 / 0.8e1 * t5 * t145 * t27 * (0.1e1 + params_a_kappa * (0.1e1 - t231)))";
  "res = t137 + t238"]%b.

(* gen_repo/impl/prebuilt/unpol/mgga_x_rtpss.py *)
Definition unpol_mgga_x_rtpss : list bstr := [
  "t3 = 3 ** (0.1e1 / 0.3e1)";
  "t4 = math.pi ** (0.1e1 / 0.3e1)";
  "t7 = 0.1e1 <= p_a_zeta_threshold";
  "t8 = p_a_zeta_threshold - 0.1e1";
  "t10 = lax_cond(t7, -t8, 0)";
  "t11 = lax_cond(t7, t8, t10)";
  "t12 = 0.1e1 + t11";
  "t14 = p_a_zeta_threshold ** (0.1e1 / 0.3e1)";
  "t16 = t12 ** (0.1e1 / 0.3e1)";
  "t18 = lax_cond(t12 <= p_a_zeta_threshold, t14 * p_a_zeta_threshold, t16 * t12)";
  "t19 = r0 ** (0.1e1 / 0.3e1)";
  "t21 = s0 ** 2";
  "t23 = r0 ** 2";
  "t24 = 0.1e1 / t23";
  "t25 = tau0 ** 2";
  "t26 = 0.1e1 / t25";
  "t27 = t24 * t26";
  "t29 = t21 * t24 * t26";
  "t32 = (0.1e1 + t29 / 0.64e2) ** 2";
  "t38 = 6 ** (0.1e1 / 0.3e1)";
  "t40 = math.pi ** 2";
  "t41 = t40 ** (0.1e1 / 0.3e1)";
  "t42 = t41 ** 2";
  "t43 = 0.1e1 / t42";
  "t45 = 2 ** (0.1e1 / 0.3e1)";
  "t46 = t45 ** 2";
  "t48 = t19 ** 2";
  "t51 = s0 * t46 / t48 / t23";
  "t59 = tau0 * t46 / t48 / r0 - t51 / 0.8e1";
  "t63 = 0.5e1 / 0.9e1 * t59 * t38 * t43 - 0.1e1";
  "t65 = t38 * t43";
  "t70 = math.sqrt(0.5e1 * params_a_b * t59 * t65 * t63 + 0.9e1)";
  "t76 = 0.27e2 / 0.20e2 * t63 / t70 + t65 * t51 / 0.36e2";
  "t77 = t76 ** 2";
  "t80 = t38 ** 2";
  "t82 = 0.1e1 / t41 / t40";
  "t85 = t23 ** 2";
  "t89 = t21 * t45 / t19 / t85 / r0";
  "t93 = math.sqrt(0.100e3 * t80 * t82 * t89 + 0.162e3 * t29)";
  "t96 = 0.1e1 / params_a_kappa";
  "t101 = math.sqrt(params_a_e)";
  "t106 = t40 ** 2";
  "t110 = t85 ** 2";
  "t121 = (0.1e1 + t101 * t38 * t43 * t51 / 0.24e2) ** 2";
  "t125 = math.exp(-((0.10e2 / 0.81e2 + params_a_c * t21 * t27 / t32 / 0.64e2) * t38 * t43 * t51 / 0.24e2 + 0.146e3 / 0.2025e4 * t77 - 0.73e2 / 0.97200e5 * t76 * t93 + 0.25e2 / 0.472392e6 * t96 * t80 * t82 * t89 + t101 * t21 * t27 / 0.720e3 + params_a_e * params_a_mu / t106 * t21 * s0 / t110 / 0.576e3) / t121 * t96)";
  "t132 = lax_cond(r0 / 0.2e1 <= p_a_dens_threshold, 0, -0.3e1 / 0.8e1 * t3 / t4 * t18 * t19 * (0.1e1 + params_a_kappa * (0.1e1 - t125)))";
  "res = 0.2e1 * t132"]%b.

(* gen_repo/impl/prebuilt/pol/mgga_x_sa_tpss.py *)
Definition pol_mgga_x_sa_tpss : list bstr := [
  "t2 = 3 ** (0.1e1 / 0.3e1)";
  "t3 = math.pi ** (0.1e1 / 0.3e1)";
  "t5 = t2 / t3";
  "t6 = r0 + r1";
  "t7 = 0.1e1 / t6";
  "t10 = 0.2e1 * r0 * t7 <= p_a_zeta_threshold";
  "t11 = p_a_zeta_threshold - 0.1e1";
  "t14 = 0.2e1 * r1 * t7 <= p_a_zeta_threshold";
  "t15 = -t11";
  "t17 = (r0 - r1) * t7";
  "t18 = lax_cond(t14, t15, t17)";
  "t19 = lax_cond(t10, t11, t18)";
  "t20 = 0.1e1 + t19";
  "t22 = p_a_zeta_threshold ** (0.1e1 / 0.3e1)";
  "t23 = t22 * p_a_zeta_threshold";
  "t24 = t20 ** (0.1e1 / 0.3e1)";
  "t26 = lax_cond(t20 <= p_a_zeta_threshold, t23, t24 * t20)";
  "t27 = t6 ** (0.1e1 / 0.3e1)";
  "t29 = math.sqrt(0.5e1)";
  "t30 = math.pi * t29";
  "t31 = r0 ** (0.1e1 / 0.3e1)";
  "t32 = t31 ** 2";
  "t36 = r0 ** 2";
  "t38 = 0.1e1 / t32 / t36";
  "t39 = s0 * t38";
  "t42 = 6 ** (0.1e1 / 0.3e1)";
  "t43 = (tau0 / t32 / r0 - t39 / 0.8e1) * t42";
  "t44 = math.pi ** 2";
  "t45 = t44 ** (0.1e1 / 0.3e1)";
  "t46 = t45 ** 2";
  "t47 = 0.1e1 / t46";
  "t48 = t43 * t47";
  "t51 = math.sqrt(0.5e1 * t48 + 0.9e1)";
  "t52 = 0.5e1 / 0.9e1 * t48";
  "t54 = math.log(t52 + 0.348e0)";
  "t56 = math.sqrt(0.2413e1 + t54)";
  "t58 = t51 / t56";
  "t61 = s0 ** 2";
  "t63 = t61 / t36";
  "t64 = tau0 ** 2";
  "t65 = 0.1e1 / t64";
  "t66 = t63 * t65";
  "t69 = (0.1e1 + t66 / 0.64e2) ** 2";
  "t80 = t52 - 0.1e1";
  "t85 = math.sqrt(0.1e1 + 0.22222222222222222222e0 * t43 * t47 * t80)";
  "t89 = t42 * t47";
  "t90 = t89 * t39";
  "t92 = 0.9e1 / 0.20e2 * t80 / t85 + t90 / 0.36e2";
  "t93 = t92 ** 2";
  "t96 = t42 ** 2";
  "t99 = t96 / t45 / t44";
  "t100 = t36 ** 2";
  "t105 = t99 * t61 / t31 / t100 / r0";
  "t108 = math.sqrt(0.162e3 * t66 + 0.50e2 * t105)";
  "t112 = 0.1e1 / math.pi * t29";
  "t119 = t44 ** 2";
  "t120 = 0.1e1 / t119";
  "t123 = t100 ** 2";
  "t130 = (0.1e1 + 0.51656585037899841583e-1 * t90) ** 2";
  "t146 = lax_cond(r0 <= p_a_dens_threshold, 0, -0.3e1 / 0.8e1 * t5 * t26 * t27 * (0.1e1 + 0.2e1 / 0.45e2 * t30 * t58 * (0.1e1 - 0.2e1 / 0.45e2 * t30 * t58 / (0.2e1 / 0.45e2 * t30 * t58 + ((0.10e2 / 0.81e2 + 0.24858750000000000000e-1 * t63 * t65 / t69) * t42 * t47 * s0 * t38 / 0.24e2 + 0.146e3 / 0.2025e4 * t93 - 0.73e2 / 0.97200e5 * t92 * t108 + 0.25e2 / 0.209952e6 * t112 / t51 * t56 * t105 + 0.17218861679299947194e-2 * t66 + 0.14643527343750000000e-3 * t120 * t61 * s0 / t123) / t130))))";
  "t148 = lax_cond(t10, t15, -t17)";
  "t149 = lax_cond(t14, t11, t148)";
  "t150 = 0.1e1 + t149";
  "t152 = t150 ** (0.1e1 / 0.3e1)";
  "t154 = lax_cond(t150 <= p_a_zeta_threshold, t23, t152 * t150)";
  "t156 = r1 ** (0.1e1 / 0.3e1)";
  "t157 = t156 ** 2";
  "t161 = r1 ** 2";
  "t163 = 0.1e1 / t157 / t161";
  "t164 = s2 * t163";
  "t167 = (tau1 / t157 / r1 - t164 / 0.8e1) * t42";
  "t168 = t167 * t47";
  "t171 = math.sqrt(0.5e1 * t168 + 0.9e1)";
  "t172 = 0.5e1 / 0.9e1 * t168";
  "t174 = math.log(t172 + 0.348e0)";
  "t176 = math.sqrt(0.2413e1 + t174)";
  "t178 = t171 / t176";
  "t181 = s2 ** 2";
  "t183 = t181 / t161";
  "t184 = tau1 ** 2";
  "t185 = 0.1e1 / t184";
  "t186 = t183 * t185";
  "t189 = (0.1e1 + t186 / 0.64e2) ** 2";
  "t200 = t172 - 0.1e1";
  "t205 = math.sqrt(0.1e1 + 0.22222222222222222222e0 * t167 * t47 * t200)";
  "t209 = t89 * t164";
  "t211 = 0.9e1 / 0.20e2 * t200 / t205 + t209 / 0.36e2";
  "t212 = t211 ** 2";
  "t215 = t161 ** 2";
  "t220 = t99 * t181 / t156 / t215 / r1";
  "t223 = math.sqrt(0.162e3 * t186 + 0.50e2 * t220)";
  "t234 = t215 ** 2";
  "t241 = (0.1e1 + 0.51656585037899841583e-1 * t209) ** 2";
  "t257 = lax_cond(r1 <= p_a_dens_threshold, 0, -0.3e1 / 0.8e1 * t5 * t154 * t27 * (0.1e1 + 0.2e1 / 0.45e2 * t30 * t178 * (0.1e1 - 0.2e1 / 0.45e2 * t30 * t178 / (0.2e1 / 0.45e2 * t30 * t178 + ((0.10e2 / 0.81e2 + 0.24858750000000000000e-1 * t183 * t185 / t189) * t42 * t47 * s2 * t163 / 0.24e2 + 0.146e3 / 0.2025e4 * t212 - 0.73e2 / 0.97200e5 * t211 * t223 + 0.25e2 / 0.209952e6 * t112 / t171 * t176 * t220 + 0.17218861679299947194e-2 * t186 + 0.14643527343750000000e-3 * t120 * t181 * s2 / t234) / t241))))";
  "res = t146 + t257"]%b.

(* gen_repo/impl/prebuilt/unpol/mgga_x_sa_tpss.py *)
Definition unpol_mgga_x_sa_tpss : list bstr := [
  "t3 = 3 ** (0.1e1 / 0.3e1)";
  "t4 = math.pi ** (0.1e1 / 0.3e1)";
  "t7 = 0.1e1 <= p_a_zeta_threshold";
  "t8 = p_a_zeta_threshold - 0.1e1";
  "t10 = lax_cond(t7, -t8, 0)";
  "t11 = lax_cond(t7, t8, t10)";
  "t12 = 0.1e1 + t11";
  "t14 = p_a_zeta_threshold ** (0.1e1 / 0.3e1)";
  "t16 = t12 ** (0.1e1 / 0.3e1)";
  "t18 = lax_cond(t12 <= p_a_zeta_threshold, t14 * p_a_zeta_threshold, t16 * t12)";
  "t19 = r0 ** (0.1e1 / 0.3e1)";
  "t21 = math.sqrt(0.5e1)";
  "t22 = math.pi * t21";
  "t23 = 2 ** (0.1e1 / 0.3e1)";
  "t24 = t23 ** 2";
  "t26 = t19 ** 2";
  "t31 = r0 ** 2";
  "t34 = s0 * t24 / t26 / t31";
  "t37 = 6 ** (0.1e1 / 0.3e1)";
  "t38 = (tau0 * t24 / t26 / r0 - t34 / 0.8e1) * t37";
  "t39 = math.pi ** 2";
  "t40 = t39 ** (0.1e1 / 0.3e1)";
  "t41 = t40 ** 2";
  "t42 = 0.1e1 / t41";
  "t43 = t38 * t42";
  "t46 = math.sqrt(0.5e1 * t43 + 0.9e1)";
  "t47 = 0.5e1 / 0.9e1 * t43";
  "t49 = math.log(t47 + 0.348e0)";
  "t51 = math.sqrt(0.2413e1 + t49)";
  "t53 = t46 / t51";
  "t56 = s0 ** 2";
  "t58 = t56 / t31";
  "t59 = tau0 ** 2";
  "t60 = 0.1e1 / t59";
  "t61 = t58 * t60";
  "t64 = (0.1e1 + t61 / 0.64e2) ** 2";
  "t74 = t47 - 0.1e1";
  "t79 = math.sqrt(0.1e1 + 0.22222222222222222222e0 * t38 * t42 * t74)";
  "t84 = t37 * t42 * t34";
  "t86 = 0.9e1 / 0.20e2 * t74 / t79 + t84 / 0.36e2";
  "t87 = t86 ** 2";
  "t90 = t37 ** 2";
  "t95 = t31 ** 2";
  "t100 = t90 / t40 / t39 * t56 * t23 / t19 / t95 / r0";
  "t103 = math.sqrt(0.162e3 * t61 + 0.100e3 * t100)";
  "t114 = t39 ** 2";
  "t118 = t95 ** 2";
  "t125 = (0.1e1 + 0.51656585037899841583e-1 * t84) ** 2";
  "t141 = lax_cond(r0 / 0.2e1 <= p_a_dens_threshold, 0, -0.3e1 / 0.8e1 * t3 / t4 * t18 * t19 * (0.1e1 + 0.2e1 / 0.45e2 * t22 * t53 * (0.1e1 - 0.2e1 / 0.45e2 * t22 * t53 / (0.2e1 / 0.45e2 * t22 * t53 + ((0.10e2 / 0.81e2 + 0.24858750000000000000e-1 * t58 * t60 / t64) * t37 * t42 * t34 / 0.24e2 + 0.146e3 / 0.2025e4 * t87 - 0.73e2 / 0.97200e5 * t86 * t103 + 0.25e2 / 0.104976e6 / math.pi * t21 / t46 * t51 * t100 + 0.17218861679299947194e-2 * t61 + 0.58574109375000000000e-3 / t114 * t56 * s0 / t118) / t125))))";
  "res = 0.2e1 * t141"]%b.

(* gen_repo/impl/prebuilt/pol/mgga_x_scan.py *)
Definition pol_mgga_x_scan : list bstr := [
  "t2 = 3 ** (0.1e1 / 0.3e1)";
  "t3 = math.pi ** (0.1e1 / 0.3e1)";
  "t5 = t2 / t3";
  "t6 = r0 + r1";
  "t7 = 0.1e1 / t6";
  "t10 = 0.2e1 * r0 * t7 <= p_a_zeta_threshold";
  "t11 = p_a_zeta_threshold - 0.1e1";
  "t14 = 0.2e1 * r1 * t7 <= p_a_zeta_threshold";
  "t15 = -t11";
  "t17 = (r0 - r1) * t7";
  "t18 = lax_cond(t14, t15, t17)";
  "t19 = lax_cond(t10, t11, t18)";
  "t20 = 0.1e1 + t19";
  "t22 = p_a_zeta_threshold ** (0.1e1 / 0.3e1)";
  "t23 = t22 * p_a_zeta_threshold";
  "t24 = t20 ** (0.1e1 / 0.3e1)";
  "t26 = lax_cond(t20 <= p_a_zeta_threshold, t23, t24 * t20)";
  "t28 = t6 ** (0.1e1 / 0.3e1)";
  "t29 = 6 ** (0.1e1 / 0.3e1)";
  "t30 = math.pi ** 2";
  "t31 = t30 ** (0.1e1 / 0.3e1)";
  "t32 = t31 ** 2";
  "t33 = 0.1e1 / t32";
  "t34 = t29 * t33";
  "t35 = r0 ** 2";
  "t36 = r0 ** (0.1e1 / 0.3e1)";
  "t37 = t36 ** 2";
  "t39 = 0.1e1 / t37 / t35";
  "t40 = s0 * t39";
  "t45 = 0.100e3 / 0.6561e4 / params_a_k1 - 0.73e2 / 0.648e3";
  "t46 = t29 ** 2";
  "t50 = t45 * t46 / t31 / t30";
  "t51 = s0 ** 2";
  "t52 = t35 ** 2";
  "t57 = t45 * t29";
  "t59 = t33 * s0 * t39";
  "t62 = math.exp(-0.27e2 / 0.80e2 * t57 * t59)";
  "t66 = math.sqrt(0.146e3)";
  "t67 = t66 * t29";
  "t77 = 0.5e1 / 0.9e1 * (tau0 / t37 / r0 - t40 / 0.8e1) * t29 * t33";
  "t78 = 0.1e1 - t77";
  "t80 = t78 ** 2";
  "t82 = math.exp(-t80 / 0.2e1)";
  "t86 = (0.7e1 / 0.12960e5 * t67 * t59 + t66 * t78 * t82 / 0.100e3) ** 2";
  "t94 = math.log(DBL_EPSILON)";
  "t97 = t94 / (-t94 + params_a_c1)";
  "t100 = lax_cond(t77 < -t97, t77, -t97)";
  "t105 = math.exp(-params_a_c1 * t100 / (0.1e1 - t100))";
  "t106 = lax_cond(-t97 < t77, 0, t105)";
  "t107 = abs(params_a_d)";
  "t110 = math.log(DBL_EPSILON / t107)";
  "t113 = (-t110 + params_a_c2) / t110";
  "t114 = t77 < -t113";
  "t115 = lax_cond(t114, -t113, t77)";
  "t119 = math.exp(params_a_c2 / (0.1e1 - t115))";
  "t121 = lax_cond(t114, 0, -params_a_d * t119)";
  "t122 = lax_cond(t77 <= 0.1e1, t106, t121)";
  "t128 = math.sqrt(0.3e1)";
  "t130 = t46 / t31";
  "t131 = math.sqrt(s0)";
  "t136 = math.sqrt(t130 * t131 / t36 / r0)";
  "t140 = math.exp(-0.98958000000000000000e1 * t128 / t136)";
  "t145 = lax_cond(r0 <= p_a_dens_threshold, 0, -0.3e1 / 0.8e1 * t5 * t26 * t28 * ((0.1e1 + params_a_k1 * (0.1e1 - params_a_k1 / (params_a_k1 + 0.5e1 / 0.972e3 * t34 * t40 + t50 * t51 / t36 / t52 / r0 * t62 / 0.576e3 + t86))) * (0.1e1 - t122) + 0.1174e1 * t122) * (0.1e1 - t140))";
  "t147 = lax_cond(t10, t15, -t17)";
  "t148 = lax_cond(t14, t11, t147)";
  "t149 = 0.1e1 + t148";
  "t151 = t149 ** (0.1e1 / 0.3e1)";
  "t153 = lax_cond(t149 <= p_a_zeta_threshold, t23, t151 * t149)";
  "t155 = r1 ** 2";
  "t156 = r1 ** (0.1e1 / 0.3e1)";
  "t157 = t156 ** 2";
  "t159 = 0.1e1 / t157 / t155";
  "t160 = s2 * t159";
  "t163 = s2 ** 2";
  "t164 = t155 ** 2";
  "t170 = t33 * s2 * t159";
  "t173 = math.exp(-0.27e2 / 0.80e2 * t57 * t170)";
  "t186 = 0.5e1 / 0.9e1 * (tau1 / t157 / r1 - t160 / 0.8e1) * t29 * t33";
  "t187 = 0.1e1 - t186";
  "t189 = t187 ** 2";
  "t191 = math.exp(-t189 / 0.2e1)";
  "t195 = (0.7e1 / 0.12960e5 * t67 * t170 + t66 * t187 * t191 / 0.100e3) ** 2";
  "t205 = lax_cond(t186 < -t97, t186, -t97)";
  "t210 = math.exp(-params_a_c1 * t205 / (0.1e1 - t205))";
  "t211 = lax_cond(-t97 < t186, 0, t210)";
  "t212 = t186 < -t113";
  "t213 = lax_cond(t212, -t113, t186)";
  "t217 = math.exp(params_a_c2 / (0.1e1 - t213))";
  "t219 = lax_cond(t212, 0, -params_a_d * t217)";
  "t220 = lax_cond(t186 <= 0.1e1, t211, t219)";
  "t226 = math.sqrt(s2)";
  "t231 = math.sqrt(t130 * t226 / t156 / r1)";
  "t235 = math.exp(-0.98958000000000000000e1 * t128 / t231)";
  "t240 = lax_cond(r1 <= p_a_dens_threshold, 0, -0.3e1 / 0.8e1 * t5 * t153 * t28 * ((0.1e1 + params_a_k1 * (0.1e1 - params_a_k1 / (params_a_k1 + 0.5e1 / 0.972e3 * t34 * t160 + t50 * t163 / t156 / t164 / r1 * t173 / 0.576e3 + t195))) * (0.1e1 - t220) + 0.1174e1 * t220) * (0.1e1 - t235))";
  "res = t145 + t240"]%b.

(* gen_repo/impl/prebuilt/unpol/mgga_x_scan.py *)
Definition unpol_mgga_x_scan : list bstr := [
  "t3 = 3 ** (0.1e1 / 0.3e1)";
  "t4 = math.pi ** (0.1e1 / 0.3e1)";
  "t7 = 0.1e1 <= p_a_zeta_threshold";
  "t8 = p_a_zeta_threshold - 0.1e1";
  "t10 = lax_cond(t7, -t8, 0)";
  "t11 = lax_cond(t7, t8, t10)";
  "t12 = 0.1e1 + t11";
  "t14 = p_a_zeta_threshold ** (0.1e1 / 0.3e1)";
  "t16 = t12 ** (0.1e1 / 0.3e1)";
  "t18 = lax_cond(t12 <= p_a_zeta_threshold, t14 * p_a_zeta_threshold, t16 * t12)";
  "t20 = r0 ** (0.1e1 / 0.3e1)";
  "t21 = 6 ** (0.1e1 / 0.3e1)";
  "t22 = math.pi ** 2";
  "t23 = t22 ** (0.1e1 / 0.3e1)";
  "t24 = t23 ** 2";
  "t25 = 0.1e1 / t24";
  "t27 = 2 ** (0.1e1 / 0.3e1)";
  "t28 = t27 ** 2";
  "t30 = r0 ** 2";
  "t31 = t20 ** 2";
  "t34 = s0 * t28 / t31 / t30";
  "t39 = 0.100e3 / 0.6561e4 / params_a_k1 - 0.73e2 / 0.648e3";
  "t40 = t21 ** 2";
  "t45 = s0 ** 2";
  "t47 = t30 ** 2";
  "t55 = math.exp(-0.27e2 / 0.80e2 * t39 * t21 * t25 * t34)";
  "t60 = math.sqrt(0.146e3)";
  "t73 = 0.5e1 / 0.9e1 * (tau0 * t28 / t31 / r0 - t34 / 0.8e1) * t21 * t25";
  "t74 = 0.1e1 - t73";
  "t76 = t74 ** 2";
  "t78 = math.exp(-t76 / 0.2e1)";
  "t82 = (0.7e1 / 0.12960e5 * t60 * t21 * t25 * t34 + t60 * t74 * t78 / 0.100e3) ** 2";
  "t90 = math.log(DBL_EPSILON)";
  "t93 = t90 / (-t90 + params_a_c1)";
  "t96 = lax_cond(t73 < -t93, t73, -t93)";
  "t101 = math.exp(-params_a_c1 * t96 / (0.1e1 - t96))";
  "t102 = lax_cond(-t93 < t73, 0, t101)";
  "t103 = abs(params_a_d)";
  "t106 = math.log(DBL_EPSILON / t103)";
  "t109 = (-t106 + params_a_c2) / t106";
  "t110 = t73 < -t109";
  "t111 = lax_cond(t110, -t109, t73)";
  "t115 = math.exp(params_a_c2 / (0.1e1 - t111))";
  "t117 = lax_cond(t110, 0, -params_a_d * t115)";
  "t118 = lax_cond(t73 <= 0.1e1, t102, t117)";
  "t124 = math.sqrt(0.3e1)";
  "t127 = math.sqrt(s0)";
  "t133 = math.sqrt(t40 / t23 * t127 * t27 / t20 / r0)";
  "t137 = math.exp(-0.98958000000000000000e1 * t124 / t133)";
  "t142 = lax_cond(r0 / 0.2e1 <= p_a_dens_threshold, 0, -0.3e1 / 0.8e1 * t3 / t4 * t18 * t20 * ((0.1e1 + params_a_k1 * (0.1e1 - params_a_k1 / (params_a_k1 + 0.5e1 / 0.972e3 * t21 * t25 * t34 + t39 * t40 / t23 / t22 * t45 * t27 / t20 / t47 / r0 * t55 / 0.288e3 + t82))) * (0.1e1 - t118) + 0.1174e1 * t118) * (0.1e1 - t137))";
  "res = 0.2e1 * t142"]%b.

(* gen_repo/impl/prebuilt/pol/mgga_x_task.py *)
Definition pol_mgga_x_task : list bstr := [
  "t2 = 3 ** (0.1e1 / 0.3e1)";
  "t3 = math.pi ** (0.1e1 / 0.3e1)";
  "t5 = t2 / t3";
  "t6 = r0 + r1";
  "t7 = 0.1e1 / t6";
  "t10 = 0.2e1 * r0 * t7 <= p_a_zeta_threshold";
  "t11 = p_a_zeta_threshold - 0.1e1";
  "t14 = 0.2e1 * r1 * t7 <= p_a_zeta_threshold";
  "t15 = -t11";
  "t17 = (r0 - r1) * t7";
  "t18 = lax_cond(t14, t15, t17)";
  "t19 = lax_cond(t10, t11, t18)";
  "t20 = t19 + 0.1e1";
  "t22 = p_a_zeta_threshold ** (0.1e1 / 0.3e1)";
  "t23 = t22 * p_a_zeta_threshold";
  "t24 = t20 ** (0.1e1 / 0.3e1)";
  "t26 = lax_cond(t20 <= p_a_zeta_threshold, t23, t24 * t20)";
  "t27 = t6 ** (0.1e1 / 0.3e1)";
  "t29 = 6 ** (0.1e1 / 0.3e1)";
  "t30 = math.pi ** 2";
  "t31 = t30 ** (0.1e1 / 0.3e1)";
  "t32 = t31 ** 2";
  "t34 = t29 / t32";
  "t35 = r0 ** 2";
  "t36 = r0 ** (0.1e1 / 0.3e1)";
  "t37 = t36 ** 2";
  "t38 = t37 * t35";
  "t42 = t34 * s0 / t38 / 0.24e2";
  "t43 = 0.0e0 < t42";
  "t44 = lax_cond(t43, t42, 0)";
  "t45 = t44 ** (0.1e1 / 0.4e1)";
  "t48 = math.exp(-params_a_task_c / t45)";
  "t50 = lax_cond(t43, 0.1e1 - t48, 0)";
  "t52 = params_a_task_bnu[0]";
  "t53 = t35 ** 2";
  "t55 = t37 * t53 * t35";
  "t58 = t53 * r0";
  "t60 = r0 * tau0";
  "t63 = 0.1e1 / r0";
  "t65 = 0.1e1 / tau0";
  "t74 = lax_cond(0.0e0 < 0.12500000000000000000e0 * (0.79999999992000000000e1 * t60 - s0) * t63 * t65, (0.8e1 * t60 - s0) * t63 * t65 / 0.8e1, 0.1e-9)";
  "t75 = t74 * tau0";
  "t79 = t36 * t35 * r0";
  "t81 = t74 ** 2";
  "t82 = tau0 ** 2";
  "t83 = t81 * t82";
  "t86 = t37 * r0";
  "t90 = t81 * t74 * t82 * tau0";
  "t93 = t81 ** 2";
  "t95 = t82 ** 2";
  "t98 = params_a_task_bnu[1]";
  "t110 = params_a_task_bnu[2]";
  "t119 = 0.47049607861172565388e8 * t52 * t55 + 0.41291508340807648886e8 * t52 * t58 * t75 + 0.13589289623490307943e8 * t52 * t79 * t83 + 0.19876972814512516632e7 * t52 * t86 * t90 + 0.10902723556992837954e6 * t52 * t93 * t95 - 0.47049607861172565388e8 * t98 * t55 - 0.20645754170403824442e8 * t98 * t58 * t75 + 0.99384864072562583159e6 * t98 * t86 * t90 + 0.10902723556992837954e6 * t98 * t93 * t95 + 0.47049607861172565386e8 * t110 * t55 - 0.41291508340807648885e8 * t110 * t58 * t75 - 0.22648816039150513236e8 * t110 * t79 * t83";
  "t126 = params_a_task_bnu[3]";
  "t141 = params_a_task_bnu[4]";
  "t156 = -0.19876972814512516631e7 * t110 * t86 * t90 + 0.10902723556992837954e6 * t110 * t93 * t95 - 0.47049607861172565384e8 * t126 * t55 + 0.14452027919282677111e9 * t126 * t58 * t75 + 0.1e-11 * t126 * t79 * t83 - 0.69569404850793808212e7 * t126 * t86 * t90 + 0.10902723556992837955e6 * t126 * t93 * t95 + 0.4704960786117256539e8 * t141 * t55 - 0.28904055838565354220e9 * t141 * t58 * t75 + 0.15854171227405359266e9 * t141 * t79 * t83 - 0.13913880970158761643e8 * t141 * t86 * t90 + 0.10902723556992837954e6 * t141 * t93 * t95";
  "t161 = (0.82820720060468819300e2 * t86 + 0.18171205928321396589e2 * t75) ** 2";
  "t162 = t161 ** 2";
  "t167 = t3 ** 2";
  "t168 = t167 * t30";
  "t169 = t36 * t58 * t168";
  "t170 = params_a_task_anu[0]";
  "t173 = params_a_task_anu[1]";
  "t176 = params_a_task_anu[2]";
  "t179 = t38 * t29";
  "t180 = t3 * math.pi";
  "t181 = t180 * s0";
  "t188 = t29 ** 2";
  "t189 = s0 ** 2";
  "t190 = t188 * t189";
  "t199 = (t29 * s0 + 0.24e2 * t180 * t38) ** 2";
  "t204 = t50 ** params_a_task_d";
  "t210 = lax_cond(r0 <= p_a_dens_threshold, 0, -0.3e1 / 0.8e1 * t5 * t26 * t27 * (params_a_task_h0x * t50 + (0.10e1 - (t119 + t156) / t162) * ((0.48e2 * t179 * t181 * t170 - 0.144e3 * t179 * t181 * t176 + 0.576e3 * t169 * t170 - 0.576e3 * t169 * t173 + 0.576e3 * t169 * t176 + t190 * t170 + t190 * t173 + t190 * t176) / t199 - params_a_task_h0x) * t204))";
  "t212 = lax_cond(t10, t15, -t17)";
  "t213 = lax_cond(t14, t11, t212)";
  "t214 = t213 + 0.1e1";
  "t216 = t214 ** (0.1e1 / 0.3e1)";
  "t218 = lax_cond(t214 <= p_a_zeta_threshold, t23, t216 * t214)";
  "t220 = r1 ** 2";
  "t221 = r1 ** (0.1e1 / 0.3e1)";
  "t222 = t221 ** 2";
  "t223 = t222 * t220";
  "t227 = t34 * s2 / t223 / 0.24e2";
  "t228 = 0.0e0 < t227";
  "t229 = lax_cond(t228, t227, 0)";
  "t230 = t229 ** (0.1e1 / 0.4e1)";
  "t233 = math.exp(-params_a_task_c / t230)";
  "t235 = lax_cond(t228, 0.1e1 - t233, 0)";
  "t237 = t220 ** 2";
  "t239 = t222 * t237 * t220";
  "t242 = t237 * r1";
  "t244 = r1 * tau1";
  "t247 = 0.1e1 / r1";
  "t249 = 0.1e1 / tau1";
  "t258 = lax_cond(0.0e0 < 0.12500000000000000000e0 * (0.79999999992000000000e1 * t244 - s2) * t247 * t249, (0.8e1 * t244 - s2) * t247 * t249 / 0.8e1, 0.1e-9)";
  "t259 = tau1 * t258";
  "t263 = t221 * t220 * r1";
  "t265 = tau1 ** 2";
  "t266 = t258 ** 2";
  "t267 = t265 * t266";
  "t270 = t222 * r1";
  "t274 = t265 * tau1 * t266 * t258";
  "t277 = t265 ** 2";
  "t279 = t266 ** 2";
  "t301 = 0.47049607861172565388e8 * t52 * t239 + 0.41291508340807648886e8 * t52 * t242 * t259 + 0.13589289623490307943e8 * t52 * t263 * t267 + 0.19876972814512516632e7 * t52 * t270 * t274 + 0.10902723556992837954e6 * t52 * t277 * t279 - 0.47049607861172565388e8 * t98 * t239 - 0.20645754170403824442e8 * t98 * t242 * t259 + 0.99384864072562583159e6 * t98 * t270 * t274 + 0.10902723556992837954e6 * t98 * t277 * t279 + 0.47049607861172565386e8 * t110 * t239 - 0.41291508340807648885e8 * t110 * t242 * t259 - 0.22648816039150513236e8 * t110 * t263 * t267";
  "t336 = -0.19876972814512516631e7 * t110 * t270 * t274 + 0.10902723556992837954e6 * t110 * t277 * t279 - 0.47049607861172565384e8 * t126 * t239 + 0.14452027919282677111e9 * t126 * t242 * t259 + 0.1e-11 * t126 * t263 * t267 - 0.69569404850793808212e7 * t126 * t270 * t274 + 0.10902723556992837955e6 * t126 * t277 * t279 + 0.4704960786117256539e8 * t141 * t239 - 0.28904055838565354220e9 * t141 * t242 * t259 + 0.15854171227405359266e9 * t141 * t263 * t267 - 0.13913880970158761643e8 * t141 * t270 * t274 + 0.10902723556992837954e6 * t141 * t277 * t279";
  "t341 = (0.82820720060468819300e2 * t270 + 0.18171205928321396589e2 * t259) ** 2";
  "t342 = t341 ** 2";
  "t347 = t221 * t242 * t168";
  "t354 = t223 * t29";
  "t355 = t180 * s2";
  "t362 = s2 ** 2";
  "t363 = t188 * t362";
  "t372 = (t29 * s2 + 0.24e2 * t180 * t223) ** 2";
  "t377 = t235 ** params_a_task_d";
  "t383 = lax_cond(r1 <= p_a_dens_threshold, 0, -0.3e1 / 0.8e1 * t5 * t218 * t27 * (params_a_task_h0x * t235 + (0.10e1 - (t301 + t336) / t342) * ((0.48e2 * t354 * t355 * t170 - 0.144e3 * t354 * t355 * t176 + 0.576e3 * t347 * t170 + t363 * t170 - 0.576e3 * t347 * t173 + t363 * t173 + 0.576e3 * t347 * t176 + t363 * t176) / t372 - params_a_task_h0x) * t377))";
  "res = t210 + t383"]%b.

(* gen_repo/impl/prebuilt/unpol/mgga_x_task.py *)
Definition unpol_mgga_x_task : list bstr := [
  "t3 = 3 ** (0.1e1 / 0.3e1)";
  "t4 = math.pi ** (0.1e1 / 0.3e1)";
  "t7 = 0.1e1 <= p_a_zeta_threshold";
  "t8 = p_a_zeta_threshold - 0.1e1";
  "t10 = lax_cond(t7, -t8, 0)";
  "t11 = lax_cond(t7, t8, t10)";
  "t12 = t11 + 0.1e1";
  "t14 = p_a_zeta_threshold ** (0.1e1 / 0.3e1)";
  "t16 = t12 ** (0.1e1 / 0.3e1)";
  "t18 = lax_cond(t12 <= p_a_zeta_threshold, t14 * p_a_zeta_threshold, t16 * t12)";
  "t19 = r0 ** (0.1e1 / 0.3e1)";
  "t21 = 6 ** (0.1e1 / 0.3e1)";
  "t22 = math.pi ** 2";
  "t23 = t22 ** (0.1e1 / 0.3e1)";
  "t24 = t23 ** 2";
  "t27 = 2 ** (0.1e1 / 0.3e1)";
  "t28 = t27 ** 2";
  "t30 = r0 ** 2";
  "t31 = t19 ** 2";
  "t32 = t31 * t30";
  "t36 = t21 / t24 * s0 * t28 / t32 / 0.24e2";
  "t37 = 0.0e0 < t36";
  "t38 = lax_cond(t37, t36, 0)";
  "t39 = t38 ** (0.1e1 / 0.4e1)";
  "t42 = math.exp(-params_a_task_c / t39)";
  "t44 = lax_cond(t37, 0.1e1 - t42, 0)";
  "t46 = params_a_task_bnu[0]";
  "t47 = t30 ** 2";
  "t49 = t31 * t47 * t30";
  "t52 = t47 * r0";
  "t54 = r0 * tau0";
  "t57 = 0.1e1 / r0";
  "t59 = 0.1e1 / tau0";
  "t68 = lax_cond(0.0e0 < 0.12500000000000000000e0 * (0.79999999992000000000e1 * t54 - s0) * t57 * t59, (0.8e1 * t54 - s0) * t57 * t59 / 0.8e1, 0.1e-9)";
  "t69 = tau0 * t68";
  "t73 = t19 * t30 * r0";
  "t75 = tau0 ** 2";
  "t76 = t68 ** 2";
  "t77 = t75 * t76";
  "t80 = t31 * r0";
  "t84 = t75 * tau0 * t76 * t68";
  "t87 = t75 ** 2";
  "t89 = t76 ** 2";
  "t92 = params_a_task_bnu[1]";
  "t104 = params_a_task_bnu[2]";
  "t113 = 0.47049607861172565388e8 * t46 * t49 + 0.65546183777551744717e8 * t46 * t52 * t69 + 0.34242864099506828874e8 * t46 * t73 * t77 + 0.79507891258050066525e7 * t46 * t80 * t84 + 0.69227979374755602348e6 * t46 * t87 * t89 - 0.47049607861172565388e8 * t92 * t49 - 0.32773091888775872359e8 * t92 * t52 * t69 + 0.39753945629025033263e7 * t92 * t80 * t84 + 0.69227979374755602348e6 * t92 * t87 * t89 + 0.47049607861172565386e8 * t104 * t49 - 0.65546183777551744717e8 * t104 * t52 * t69 - 0.57071440165844714789e8 * t104 * t73 * t77";
  "t120 = params_a_task_bnu[3]";
  "t135 = params_a_task_bnu[4]";
  "t150 = -0.79507891258050066526e7 * t104 * t80 * t84 + 0.69227979374755602349e6 * t104 * t87 * t89 - 0.47049607861172565384e8 * t120 * t49 + 0.22941164322143110651e9 * t120 * t52 * t69 - 0.4e-11 * t120 * t73 * t77 - 0.27827761940317523285e8 * t120 * t80 * t84 + 0.69227979374755602348e6 * t120 * t87 * t89 + 0.4704960786117256539e8 * t135 * t49 - 0.45882328644286221302e9 * t135 * t52 * t69 + 0.39950008116091300353e9 * t135 * t73 * t77 - 0.55655523880635046568e8 * t135 * t80 * t84 + 0.6922797937475560235e6 * t135 * t87 * t89";
  "t155 = (0.82820720060468819300e2 * t80 + 0.28844991406148167646e2 * t69) ** 2";
  "t156 = t155 ** 2";
  "t161 = t4 ** 2";
  "t163 = t19 * t52 * t161 * t22";
  "t164 = params_a_task_anu[0]";
  "t167 = params_a_task_anu[1]";
  "t170 = params_a_task_anu[2]";
  "t173 = t3 * t32";
  "t174 = t4 * math.pi";
  "t175 = t174 * s0";
  "t182 = t3 ** 2";
  "t183 = s0 ** 2";
  "t184 = t182 * t183";
  "t193 = (t3 * s0 + 0.12e2 * t174 * t32) ** 2";
  "t198 = t44 ** params_a_task_d";
  "t204 = lax_cond(r0 / 0.2e1 <= p_a_dens_threshold, 0, -0.3e1 / 0.8e1 * t3 / t4 * t18 * t19 * (params_a_task_h0x * t44 + (0.10e1 - (t113 + t150) / t156) * ((0.24e2 * t173 * t175 * t164 - 0.72e2 * t173 * t175 * t170 + 0.144e3 * t163 * t164 - 0.144e3 * t163 * t167 + 0.144e3 * t163 * t170 + t184 * t164 + t184 * t167 + t184 * t170) / t193 - params_a_task_h0x) * t198))";
  "res = 0.2e1 * t204"]%b.

(* gen_repo/impl/prebuilt/pol/mgga_x_tau_hcth.py *)
Definition pol_mgga_x_tau_hcth : list bstr := [
  "t2 = 3 ** (0.1e1 / 0.3e1)";
  "t3 = math.pi ** (0.1e1 / 0.3e1)";
  "t5 = t2 / t3";
  "t6 = r0 + r1";
  "t7 = 0.1e1 / t6";
  "t10 = 0.2e1 * r0 * t7 <= p_a_zeta_threshold";
  "t11 = p_a_zeta_threshold - 0.1e1";
  "t14 = 0.2e1 * r1 * t7 <= p_a_zeta_threshold";
  "t15 = -t11";
  "t17 = (r0 - r1) * t7";
  "t18 = lax_cond(t14, t15, t17)";
  "t19 = lax_cond(t10, t11, t18)";
  "t20 = 0.1e1 + t19";
  "t22 = p_a_zeta_threshold ** (0.1e1 / 0.3e1)";
  "t23 = t22 * p_a_zeta_threshold";
  "t24 = t20 ** (0.1e1 / 0.3e1)";
  "t26 = lax_cond(t20 <= p_a_zeta_threshold, t23, t24 * t20)";
  "t27 = t6 ** (0.1e1 / 0.3e1)";
  "t29 = params_a_cx_local[0]";
  "t30 = params_a_cx_local[1]";
  "t32 = r0 ** 2";
  "t33 = r0 ** (0.1e1 / 0.3e1)";
  "t34 = t33 ** 2";
  "t36 = 0.1e1 / t34 / t32";
  "t39 = 0.1e1 + 0.4e-2 * s0 * t36";
  "t41 = t36 / t39";
  "t44 = params_a_cx_local[2]";
  "t45 = s0 ** 2";
  "t47 = t32 ** 2";
  "t51 = t39 ** 2";
  "t53 = 0.1e1 / t33 / t47 / r0 / t51";
  "t56 = params_a_cx_local[3]";
  "t57 = t45 * s0";
  "t59 = t47 ** 2";
  "t63 = 0.1e1 / t59 / t51 / t39";
  "t66 = params_a_cx_nlocal[0]";
  "t67 = params_a_cx_nlocal[1]";
  "t71 = params_a_cx_nlocal[2]";
  "t75 = params_a_cx_nlocal[3]";
  "t80 = 6 ** (0.1e1 / 0.3e1)";
  "t81 = t80 ** 2";
  "t82 = math.pi ** 2";
  "t83 = t82 ** (0.1e1 / 0.3e1)";
  "t84 = t83 ** 2";
  "t86 = 0.3e1 / 0.10e2 * t81 * t84";
  "t89 = tau0 / t34 / r0";
  "t90 = t86 - t89";
  "t91 = t86 + t89";
  "t94 = t90 ** 2";
  "t96 = t91 ** 2";
  "t101 = t94 ** 2";
  "t103 = t96 ** 2";
  "t113 = lax_cond(r0 <= p_a_dens_threshold, 0, -0.3e1 / 0.8e1 * t5 * t26 * t27 * (t29 + 0.4e-2 * t30 * s0 * t41 + 0.16e-4 * t44 * t45 * t53 + 0.64e-7 * t56 * t57 * t63 + (t66 + 0.4e-2 * t67 * s0 * t41 + 0.16e-4 * t71 * t45 * t53 + 0.64e-7 * t75 * t57 * t63) * (t90 / t91 - 0.2e1 * t94 * t90 / t96 / t91 + t101 * t90 / t103 / t91)))";
  "t115 = lax_cond(t10, t15, -t17)";
  "t116 = lax_cond(t14, t11, t115)";
  "t117 = 0.1e1 + t116";
  "t119 = t117 ** (0.1e1 / 0.3e1)";
  "t121 = lax_cond(t117 <= p_a_zeta_threshold, t23, t119 * t117)";
  "t124 = r1 ** 2";
  "t125 = r1 ** (0.1e1 / 0.3e1)";
  "t126 = t125 ** 2";
  "t128 = 0.1e1 / t126 / t124";
  "t131 = 0.1e1 + 0.4e-2 * s2 * t128";
  "t133 = t128 / t131";
  "t136 = s2 ** 2";
  "t138 = t124 ** 2";
  "t142 = t131 ** 2";
  "t144 = 0.1e1 / t125 / t138 / r1 / t142";
  "t147 = t136 * s2";
  "t149 = t138 ** 2";
  "t153 = 0.1e1 / t149 / t142 / t131";
  "t168 = tau1 / t126 / r1";
  "t169 = t86 - t168";
  "t170 = t86 + t168";
  "t173 = t169 ** 2";
  "t175 = t170 ** 2";
  "t180 = t173 ** 2";
  "t182 = t175 ** 2";
  "t192 = lax_cond(r1 <= p_a_dens_threshold, 0, -0.3e1 / 0.8e1 * t5 * t121 * t27 * (t29 + 0.4e-2 * t30 * s2 * t133 + 0.16e-4 * t44 * t136 * t144 + 0.64e-7 * t56 * t147 * t153 + (t66 + 0.4e-2 * t67 * s2 * t133 + 0.16e-4 * t71 * t136 * t144 + 0.64e-7 * t75 * t147 * t153) * (t169 / t170 - 0.2e1 * t173 * t169 / t175 / t170 + t180 * t169 / t182 / t170)))";
  "res = t113 + t192"]%b.

(* gen_repo/impl/prebuilt/unpol/mgga_x_tau_hcth.py *)
Definition unpol_mgga_x_tau_hcth : list bstr := [
  "t3 = 3 ** (0.1e1 / 0.3e1)";
  "t4 = math.pi ** (0.1e1 / 0.3e1)";
  "t7 = 0.1e1 <= p_a_zeta_threshold";
  "t8 = p_a_zeta_threshold - 0.1e1";
  "t10 = lax_cond(t7, -t8, 0)";
  "t11 = lax_cond(t7, t8, t10)";
  "t12 = 0.1e1 + t11";
  "t14 = p_a_zeta_threshold ** (0.1e1 / 0.3e1)";
  "t16 = t12 ** (0.1e1 / 0.3e1)";
  "t18 = lax_cond(t12 <= p_a_zeta_threshold, t14 * p_a_zeta_threshold, t16 * t12)";
  "t19 = r0 ** (0.1e1 / 0.3e1)";
  "t24 = 2 ** (0.1e1 / 0.3e1)";
  "t25 = t24 ** 2";
  "t26 = r0 ** 2";
  "t27 = t19 ** 2";
  "t29 = 0.1e1 / t27 / t26";
  "t34 = 0.1e1 + 0.4e-2 * s0 * t25 * t29";
  "t36 = t25 * t29 / t34";
  "t40 = s0 ** 2";
  "t42 = t26 ** 2";
  "t47 = t34 ** 2";
  "t49 = t24 / t19 / t42 / r0 / t47";
  "t53 = t40 * s0";
  "t55 = t42 ** 2";
  "t59 = 0.1e1 / t55 / t47 / t34";
  "t76 = 6 ** (0.1e1 / 0.3e1)";
  "t77 = t76 ** 2";
  "t78 = math.pi ** 2";
  "t79 = t78 ** (0.1e1 / 0.3e1)";
  "t80 = t79 ** 2";
  "t82 = 0.3e1 / 0.10e2 * t77 * t80";
  "t86 = tau0 * t25 / t27 / r0";
  "t87 = t82 - t86";
  "t88 = t82 + t86";
  "t91 = t87 ** 2";
  "t93 = t88 ** 2";
  "t98 = t91 ** 2";
  "t100 = t93 ** 2";
  "t110 = lax_cond(r0 / 0.2e1 <= p_a_dens_threshold, 0, -0.3e1 / 0.8e1 * t3 / t4 * t18 * t19 * (params_a_cx_local[0] + 0.4e-2 * params_a_cx_local[1] * s0 * t36 + 0.32e-4 * params_a_cx_local[2] * t40 * t49 + 0.256e-6 * params_a_cx_local[3] * t53 * t59 + (params_a_cx_nlocal[0] + 0.4e-2 * params_a_cx_nlocal[1] * s0 * t36 + 0.32e-4 * params_a_cx_nlocal[2] * t40 * t49 + 0.256e-6 * params_a_cx_nlocal[3] * t53 * t59) * (t87 / t88 - 0.2e1 * t91 * t87 / t93 / t88 + t98 * t87 / t100 / t88)))";
  "res = 0.2e1 * t110"]%b.

(* gen_repo/impl/prebuilt/pol/mgga_x_tb09.py *)
Definition pol_mgga_x_tb09 : list bstr := [
  "t1 = math.pi ** (0.1e1 / 0.3e1)";
  "t3 = r0 ** (0.1e1 / 0.3e1)";
  "t4 = t3 ** 2";
  "t6 = 0.1e1 / t4 / r0";
  "t9 = tau0 * t6";
  "t11 = r0 ** 2";
  "t13 = 0.1e1 / t4 / t11";
  "t16 = l0 * t6 / 0.6e1 - 0.53333333333333333333e0 * t9 + 0.66666666666666666667e-1 * s0 * t13";
  "t17 = abs(t16)";
  "t20 = lax_cond(0.0e0 < t16, 0.50e-12, -0.50e-12)";
  "t21 = lax_cond(t17 < 0.50e-12, t20, t16)";
  "t22 = br89_x(t21)";
  "t24 = math.exp(t22 / 0.3e1)";
  "t25 = math.exp(-t22)";
  "t37 = math.sqrt(0.15e2)";
  "t40 = math.sqrt(0.2e1)";
  "t45 = t9 - params_a_alpha * s0 * t13 / 0.8e1";
  "t47 = lax_cond(0.1e-9 < t45, t45, 0.1e-9)";
  "t48 = math.sqrt(t47)";
  "res = (-0.2e1 * params_a_c * t1 * t24 * (0.1e1 - t25 * (0.1e1 + t22 / 0.2e1)) / t22 + (0.3e1 * params_a_c - 0.2e1) * t37 / math.pi * t40 * t48 / 0.6e1) * t3"]%b.

(* gen_repo/impl/prebuilt/unpol/mgga_x_tb09.py *)
Definition unpol_mgga_x_tb09 : list bstr := [
  "t1 = math.pi ** (0.1e1 / 0.3e1)";
  "t3 = 2 ** (0.1e1 / 0.3e1)";
  "t4 = t3 ** 2";
  "t6 = r0 ** (0.1e1 / 0.3e1)";
  "t7 = t6 ** 2";
  "t9 = 0.1e1 / t7 / r0";
  "t13 = tau0 * t4 * t9";
  "t16 = r0 ** 2";
  "t18 = 0.1e1 / t7 / t16";
  "t21 = l0 * t4 * t9 / 0.6e1 - 0.53333333333333333333e0 * t13 + 0.66666666666666666667e-1 * s0 * t4 * t18";
  "t22 = abs(t21)";
  "t25 = lax_cond(0.0e0 < t21, 0.50e-12, -0.50e-12)";
  "t26 = lax_cond(t22 < 0.50e-12, t25, t21)";
  "t27 = br89_x(t26)";
  "t29 = math.exp(t27 / 0.3e1)";
  "t30 = math.exp(-t27)";
  "t42 = math.sqrt(0.15e2)";
  "t45 = math.sqrt(0.2e1)";
  "t51 = t13 - params_a_alpha * s0 * t4 * t18 / 0.8e1";
  "t53 = lax_cond(0.1e-9 < t51, t51, 0.1e-9)";
  "t54 = math.sqrt(t53)";
  "res = (-0.2e1 * params_a_c * t1 * t29 * (0.1e1 - t30 * (0.1e1 + t27 / 0.2e1)) / t27 + (0.3e1 * params_a_c - 0.2e1) * t42 / math.pi * t45 * t54 / 0.6e1) * t4 * t6 / 0.2e1"]%b.

(* gen_repo/impl/prebuilt/pol/mgga_x_th.py *)
Definition pol_mgga_x_th : list bstr := [
  "t2 = math.pi ** (0.1e1 / 0.3e1)";
  "t3 = t2 ** 2";
  "t4 = r0 + r1";
  "t5 = 0.1e1 / t4";
  "t8 = 0.2e1 * r0 * t5 <= p_a_zeta_threshold";
  "t9 = p_a_zeta_threshold - 0.1e1";
  "t12 = 0.2e1 * r1 * t5 <= p_a_zeta_threshold";
  "t13 = -t9";
  "t15 = (r0 - r1) * t5";
  "t16 = lax_cond(t12, t13, t15)";
  "t17 = lax_cond(t8, t9, t16)";
  "t18 = 0.1e1 + t17";
  "t20 = p_a_zeta_threshold ** (0.1e1 / 0.3e1)";
  "t21 = t20 * p_a_zeta_threshold";
  "t22 = t18 ** (0.1e1 / 0.3e1)";
  "t24 = lax_cond(t18 <= p_a_zeta_threshold, t21, t22 * t18)";
  "t26 = t4 ** (0.1e1 / 0.3e1)";
  "t27 = 0.1e1 / tau0";
  "t30 = r0 ** (0.1e1 / 0.3e1)";
  "t31 = t30 ** 2";
  "t40 = (0.1e1 / math.pi) ** (0.1e1 / 0.3e1)";
  "t42 = 4 ** (0.1e1 / 0.3e1)";
  "t43 = 0.1e1 / t40 * t42";
  "t47 = lax_cond(r0 <= p_a_dens_threshold, 0, -0.27e2 / 0.80e2 * t3 * t24 * t26 * t27 * t31 * r0 * (0.1e1 + 0.7e1 / 0.216e3 * s0 / r0 * t27) * t43)";
  "t49 = lax_cond(t8, t13, -t15)";
  "t50 = lax_cond(t12, t9, t49)";
  "t51 = 0.1e1 + t50";
  "t53 = t51 ** (0.1e1 / 0.3e1)";
  "t55 = lax_cond(t51 <= p_a_zeta_threshold, t21, t53 * t51)";
  "t57 = 0.1e1 / tau1";
  "t60 = r1 ** (0.1e1 / 0.3e1)";
  "t61 = t60 ** 2";
  "t72 = lax_cond(r1 <= p_a_dens_threshold, 0, -0.27e2 / 0.80e2 * t3 * t55 * t26 * t57 * t61 * r1 * (0.1e1 + 0.7e1 / 0.216e3 * s2 / r1 * t57) * t43)";
  "res = t47 + t72"]%b.

(* gen_repo/impl/prebuilt/unpol/mgga_x_th.py *)
Definition unpol_mgga_x_th : list bstr := [
  "t3 = math.pi ** (0.1e1 / 0.3e1)";
  "t4 = t3 ** 2";
  "t5 = 0.1e1 <= p_a_zeta_threshold";
  "t6 = p_a_zeta_threshold - 0.1e1";
  "t8 = lax_cond(t5, -t6, 0)";
  "t9 = lax_cond(t5, t6, t8)";
  "t10 = 0.1e1 + t9";
  "t12 = p_a_zeta_threshold ** (0.1e1 / 0.3e1)";
  "t14 = t10 ** (0.1e1 / 0.3e1)";
  "t16 = lax_cond(t10 <= p_a_zeta_threshold, t12 * p_a_zeta_threshold, t14 * t10)";
  "t18 = r0 ** 2";
  "t19 = 0.1e1 / tau0";
  "t22 = 2 ** (0.1e1 / 0.3e1)";
  "t30 = (0.1e1 / math.pi) ** (0.1e1 / 0.3e1)";
  "t32 = 4 ** (0.1e1 / 0.3e1)";
  "t37 = lax_cond(r0 / 0.2e1 <= p_a_dens_threshold, 0, -0.27e2 / 0.160e3 * t4 * t16 * t18 * t19 * t22 * (0.1e1 + 0.7e1 / 0.216e3 * s0 / r0 * t19) / t30 * t32)";
  "res = 0.2e1 * t37"]%b.

(* gen_repo/impl/prebuilt/pol/mgga_x_tm.py *)
Definition pol_mgga_x_tm : list bstr := [
  "t2 = 3 ** (0.1e1 / 0.3e1)";
  "t3 = math.pi ** (0.1e1 / 0.3e1)";
  "t5 = t2 / t3";
  "t6 = r0 + r1";
  "t7 = 0.1e1 / t6";
  "t10 = 0.2e1 * r0 * t7 <= p_a_zeta_threshold";
  "t11 = p_a_zeta_threshold - 0.1e1";
  "t14 = 0.2e1 * r1 * t7 <= p_a_zeta_threshold";
  "t15 = -t11";
  "t17 = (r0 - r1) * t7";
  "t18 = lax_cond(t14, t15, t17)";
  "t19 = lax_cond(t10, t11, t18)";
  "t20 = 0.1e1 + t19";
  "t22 = p_a_zeta_threshold ** (0.1e1 / 0.3e1)";
  "t23 = t22 * p_a_zeta_threshold";
  "t24 = t20 ** (0.1e1 / 0.3e1)";
  "t26 = lax_cond(t20 <= p_a_zeta_threshold, t23, t24 * t20)";
  "t27 = t6 ** (0.1e1 / 0.3e1)";
  "t33 = s0 / r0 / tau0 / 0.8e1";
  "t35 = lax_cond(t33 < 0.10e1, t33, 0.10e1)";
  "t36 = t35 ** 2";
  "t37 = t36 * t35";
  "t41 = (0.1e1 + t37) ** 2";
  "t43 = (t36 + 0.3e1 * t37) / t41";
  "t44 = 6 ** (0.1e1 / 0.3e1)";
  "t45 = math.pi ** 2";
  "t46 = t45 ** (0.1e1 / 0.3e1)";
  "t47 = t46 ** 2";
  "t48 = 0.1e1 / t47";
  "t49 = t44 * t48";
  "t50 = r0 ** 2";
  "t51 = r0 ** (0.1e1 / 0.3e1)";
  "t52 = t51 ** 2";
  "t54 = 0.1e1 / t52 / t50";
  "t55 = s0 * t54";
  "t56 = t49 * t55";
  "t58 = t44 ** 2";
  "t61 = t58 / t46 / t45";
  "t62 = s0 ** 2";
  "t63 = t50 ** 2";
  "t71 = (0.1e1 + 0.15045488888888888889e0 * t56 + 0.26899490462262948000e-2 * t61 * t62 / t51 / t63 / r0) ** (0.1e1 / 0.5e1)";
  "t76 = tau0 / t52 / r0";
  "t79 = 0.25633760400000000000e0 * t58 * t47";
  "t86 = t71 ** 2";
  "t106 = (t76 - t55 / 0.8e1) * t44 * t48 / 0.4e1 - 0.9e1 / 0.20e2 + t56 / 0.36e2";
  "t107 = t106 ** 2";
  "t114 = (0.1e1 + 0.5e1 / 0.12e2 * (0.10e2 / 0.81e2 + 0.25e2 / 0.8748e4 * t56) * t44 * t48 * s0 * t54 + 0.292e3 / 0.405e3 * t107 - 0.146e3 / 0.135e3 * t106 * t35 * (0.1e1 - t35)) ** (0.1e1 / 0.10e2)";
  "t120 = lax_cond(r0 <= p_a_dens_threshold, 0, -0.3e1 / 0.8e1 * t5 * t26 * t27 * (t43 * (0.1e1 / t71 + 0.7e1 / 0.9e1 * (0.1e1 + 0.63943327777777777778e-1 * t56 - 0.5e1 / 0.9e1 * (0.14554132000000000000e0 * t76 + t79 + 0.11867481666666666667e-1 * t55) * t44 * t48) / t86) + (0.1e1 - t43) * t114))";
  "t122 = lax_cond(t10, t15, -t17)";
  "t123 = lax_cond(t14, t11, t122)";
  "t124 = 0.1e1 + t123";
  "t126 = t124 ** (0.1e1 / 0.3e1)";
  "t128 = lax_cond(t124 <= p_a_zeta_threshold, t23, t126 * t124)";
  "t134 = s2 / r1 / tau1 / 0.8e1";
  "t136 = lax_cond(t134 < 0.10e1, t134, 0.10e1)";
  "t137 = t136 ** 2";
  "t138 = t137 * t136";
  "t142 = (0.1e1 + t138) ** 2";
  "t144 = (t137 + 0.3e1 * t138) / t142";
  "t145 = r1 ** 2";
  "t146 = r1 ** (0.1e1 / 0.3e1)";
  "t147 = t146 ** 2";
  "t149 = 0.1e1 / t147 / t145";
  "t150 = s2 * t149";
  "t151 = t49 * t150";
  "t153 = s2 ** 2";
  "t154 = t145 ** 2";
  "t162 = (0.1e1 + 0.15045488888888888889e0 * t151 + 0.26899490462262948000e-2 * t61 * t153 / t146 / t154 / r1) ** (0.1e1 / 0.5e1)";
  "t167 = tau1 / t147 / r1";
  "t175 = t162 ** 2";
  "t195 = (t167 - t150 / 0.8e1) * t44 * t48 / 0.4e1 - 0.9e1 / 0.20e2 + t151 / 0.36e2";
  "t196 = t195 ** 2";
  "t203 = (0.1e1 + 0.5e1 / 0.12e2 * (0.10e2 / 0.81e2 + 0.25e2 / 0.8748e4 * t151) * t44 * t48 * s2 * t149 + 0.292e3 / 0.405e3 * t196 - 0.146e3 / 0.135e3 * t195 * t136 * (0.1e1 - t136)) ** (0.1e1 / 0.10e2)";
  "t209 = lax_cond(r1 <= p_a_dens_threshold, 0, -0.3e1 / 0.8e1 * t5 * t128 * t27 * (t144 * (0.1e1 / t162 + 0.7e1 / 0.9e1 * (0.1e1 + 0.63943327777777777778e-1 * t151 - 0.5e1 / 0.9e1 * (0.14554132000000000000e0 * t167 + t79 + 0.11867481666666666667e-1 * t150) * t44 * t48) / t175) + (0.1e1 - t144) * t203))";
  "res = t120 + t209"]%b.

(* gen_repo/impl/prebuilt/unpol/mgga_x_tm.py *)
Definition unpol_mgga_x_tm : list bstr := [
  "t3 = 3 ** (0.1e1 / 0.3e1)";
  "t4 = math.pi ** (0.1e1 / 0.3e1)";
  "t7 = 0.1e1 <= p_a_zeta_threshold";
  "t8 = p_a_zeta_threshold - 0.1e1";
  "t10 = lax_cond(t7, -t8, 0)";
  "t11 = lax_cond(t7, t8, t10)";
  "t12 = 0.1e1 + t11";
  "t14 = p_a_zeta_threshold ** (0.1e1 / 0.3e1)";
  "t16 = t12 ** (0.1e1 / 0.3e1)";
  "t18 = lax_cond(t12 <= p_a_zeta_threshold, t14 * p_a_zeta_threshold, t16 * t12)";
  "t19 = r0 ** (0.1e1 / 0.3e1)";
  "t25 = s0 / r0 / tau0 / 0.8e1";
  "t27 = lax_cond(t25 < 0.10e1, t25, 0.10e1)";
  "t28 = t27 ** 2";
  "t29 = t28 * t27";
  "t33 = (0.1e1 + t29) ** 2";
  "t35 = (t28 + 0.3e1 * t29) / t33";
  "t36 = 6 ** (0.1e1 / 0.3e1)";
  "t37 = math.pi ** 2";
  "t38 = t37 ** (0.1e1 / 0.3e1)";
  "t39 = t38 ** 2";
  "t40 = 0.1e1 / t39";
  "t42 = 2 ** (0.1e1 / 0.3e1)";
  "t43 = t42 ** 2";
  "t45 = r0 ** 2";
  "t46 = t19 ** 2";
  "t49 = s0 * t43 / t46 / t45";
  "t50 = t36 * t40 * t49";
  "t52 = t36 ** 2";
  "t56 = s0 ** 2";
  "t58 = t45 ** 2";
  "t66 = (0.1e1 + 0.15045488888888888889e0 * t50 + 0.53798980924525896000e-2 * t52 / t38 / t37 * t56 * t42 / t19 / t58 / r0) ** (0.1e1 / 0.5e1)";
  "t72 = tau0 * t43 / t46 / r0";
  "t82 = t66 ** 2";
  "t101 = (t72 - t49 / 0.8e1) * t36 * t40 / 0.4e1 - 0.9e1 / 0.20e2 + t50 / 0.36e2";
  "t102 = t101 ** 2";
  "t109 = (0.1e1 + 0.5e1 / 0.12e2 * (0.10e2 / 0.81e2 + 0.25e2 / 0.8748e4 * t50) * t36 * t40 * t49 + 0.292e3 / 0.405e3 * t102 - 0.146e3 / 0.135e3 * t101 * t27 * (0.1e1 - t27)) ** (0.1e1 / 0.10e2)";
  "t115 = lax_cond(r0 / 0.2e1 <= p_a_dens_threshold, 0, -0.3e1 / 0.8e1 * t3 / t4 * t18 * t19 * (t35 * (0.1e1 / t66 + 0.7e1 / 0.9e1 * (0.1e1 + 0.63943327777777777778e-1 * t50 - 0.5e1 / 0.9e1 * (0.14554132000000000000e0 * t72 + 0.25633760400000000000e0 * t52 * t39 + 0.11867481666666666667e-1 * t49) * t36 * t40) / t82) + (0.1e1 - t35) * t109))";
  "res = 0.2e1 * t115"]%b.

(* gen_repo/impl/prebuilt/pol/mgga_x_tpss.py *)
Definition pol_mgga_x_tpss : list bstr := [
  "t2 = 3 ** (0.1e1 / 0.3e1)";
  "t3 = math.pi ** (0.1e1 / 0.3e1)";
  "t5 = t2 / t3";
  "t6 = r0 + r1";
  "t7 = 0.1e1 / t6";
  "t10 = 0.2e1 * r0 * t7 <= p_a_zeta_threshold";
  "t11 = p_a_zeta_threshold - 0.1e1";
  "t14 = 0.2e1 * r1 * t7 <= p_a_zeta_threshold";
  "t15 = -t11";
  "t17 = (r0 - r1) * t7";
  "t18 = lax_cond(t14, t15, t17)";
  "t19 = lax_cond(t10, t11, t18)";
  "t20 = 0.1e1 + t19";
  "t22 = p_a_zeta_threshold ** (0.1e1 / 0.3e1)";
  "t23 = t22 * p_a_zeta_threshold";
  "t24 = t20 ** (0.1e1 / 0.3e1)";
  "t26 = lax_cond(t20 <= p_a_zeta_threshold, t23, t24 * t20)";
  "t27 = t6 ** (0.1e1 / 0.3e1)";
  "t29 = 0.1e1 / r0";
  "t31 = 0.1e1 / tau0";
  "t39 = (s0 * t29 * t31 / 0.8e1) ** (params_a_BLOC_a + params_a_BLOC_b * s0 * t29 * t31 / 0.8e1)";
  "t41 = s0 ** 2";
  "t42 = r0 ** 2";
  "t43 = 0.1e1 / t42";
  "t45 = tau0 ** 2";
  "t46 = 0.1e1 / t45";
  "t47 = t41 * t43 * t46";
  "t50 = (0.1e1 + t47 / 0.64e2) ** 2";
  "t54 = 6 ** (0.1e1 / 0.3e1)";
  "t56 = math.pi ** 2";
  "t57 = t56 ** (0.1e1 / 0.3e1)";
  "t58 = t57 ** 2";
  "t59 = 0.1e1 / t58";
  "t61 = r0 ** (0.1e1 / 0.3e1)";
  "t62 = t61 ** 2";
  "t64 = 0.1e1 / t62 / t42";
  "t65 = t59 * s0 * t64";
  "t71 = s0 * t64";
  "t73 = tau0 / t62 / r0 - t71 / 0.8e1";
  "t77 = 0.5e1 / 0.9e1 * t73 * t54 * t59 - 0.1e1";
  "t79 = t54 * t59";
  "t84 = math.sqrt(0.5e1 * params_a_b * t73 * t79 * t77 + 0.9e1)";
  "t90 = 0.27e2 / 0.20e2 * t77 / t84 + t79 * t71 / 0.36e2";
  "t91 = t90 ** 2";
  "t94 = t54 ** 2";
  "t96 = 0.1e1 / t57 / t56";
  "t97 = t94 * t96";
  "t98 = t42 ** 2";
  "t101 = 0.1e1 / t61 / t98 / r0";
  "t106 = math.sqrt(0.50e2 * t97 * t41 * t101 + 0.162e3 * t47)";
  "t110 = 0.1e1 / params_a_kappa * t94";
  "t115 = math.sqrt(params_a_e)";
  "t120 = params_a_e * params_a_mu";
  "t121 = t56 ** 2";
  "t122 = 0.1e1 / t121";
  "t125 = t98 ** 2";
  "t131 = t115 * t54";
  "t135 = (0.1e1 + t131 * t65 / 0.24e2) ** 2";
  "t147 = lax_cond(r0 <= p_a_dens_threshold, 0, -0.3e1 / 0.8e1 * t5 * t26 * t27 * (0.1e1 + params_a_kappa * (0.1e1 - params_a_kappa / (params_a_kappa + ((0.10e2 / 0.81e2 + params_a_c * t39 / t50) * t54 * t65 / 0.24e2 + 0.146e3 / 0.2025e4 * t91 - 0.73e2 / 0.97200e5 * t90 * t106 + 0.25e2 / 0.944784e6 * t110 * t96 * t41 * t101 + t115 * t41 * t43 * t46 / 0.720e3 + t120 * t122 * t41 * s0 / t125 / 0.2304e4) / t135))))";
  "t149 = lax_cond(t10, t15, -t17)";
  "t150 = lax_cond(t14, t11, t149)";
  "t151 = 0.1e1 + t150";
  "t153 = t151 ** (0.1e1 / 0.3e1)";
  "t155 = lax_cond(t151 <= p_a_zeta_threshold, t23, t153 * t151)";
  "t157 = 0.1e1 / r1";
  "t159 = 0.1e1 / tau1";
  "t167 = (s2 * t157 * t159 / 0.8e1) ** (params_a_BLOC_a + params_a_BLOC_b * s2 * t157 * t159 / 0.8e1)";
  "t169 = s2 ** 2";
  "t170 = r1 ** 2";
  "t171 = 0.1e1 / t170";
  "t173 = tau1 ** 2";
  "t174 = 0.1e1 / t173";
  "t175 = t169 * t171 * t174";
  "t178 = (0.1e1 + t175 / 0.64e2) ** 2";
  "t184 = r1 ** (0.1e1 / 0.3e1)";
  "t185 = t184 ** 2";
  "t187 = 0.1e1 / t185 / t170";
  "t188 = t59 * s2 * t187";
  "t194 = s2 * t187";
  "t196 = tau1 / t185 / r1 - t194 / 0.8e1";
  "t200 = 0.5e1 / 0.9e1 * t196 * t54 * t59 - 0.1e1";
  "t206 = math.sqrt(0.5e1 * params_a_b * t196 * t79 * t200 + 0.9e1)";
  "t212 = 0.27e2 / 0.20e2 * t200 / t206 + t79 * t194 / 0.36e2";
  "t213 = t212 ** 2";
  "t216 = t170 ** 2";
  "t219 = 0.1e1 / t184 / t216 / r1";
  "t224 = math.sqrt(0.50e2 * t97 * t169 * t219 + 0.162e3 * t175)";
  "t237 = t216 ** 2";
  "t246 = (0.1e1 + t131 * t188 / 0.24e2) ** 2";
  "t258 = lax_cond(r1 <= p_a_dens_threshold, 0, -0.3e1 / 0.8e1 * t5 * t155 * t27 * (0.1e1 + params_a_kappa * (0.1e1 - params_a_kappa / (params_a_kappa + ((0.10e2 / 0.81e2 + params_a_c * t167 / t178) * t54 * t188 / 0.24e2 + 0.146e3 / 0.2025e4 * t213 - 0.73e2 / 0.97200e5 * t212 * t224 + 0.25e2 / 0.944784e6 * t110 * t96 * t169 * t219 + t115 * t169 * t171 * t174 / 0.720e3 + t120 * t122 * t169 * s2 / t237 / 0.2304e4) / t246))))";
  "res = t147 + t258"]%b.

(* gen_repo/impl/prebuilt/unpol/mgga_x_tpss.py *)
Definition unpol_mgga_x_tpss : list bstr := [
  "t3 = 3 ** (0.1e1 / 0.3e1)";
  "t4 = math.pi ** (0.1e1 / 0.3e1)";
  "t7 = 0.1e1 <= p_a_zeta_threshold";
  "t8 = p_a_zeta_threshold - 0.1e1";
  "t10 = lax_cond(t7, -t8, 0)";
  "t11 = lax_cond(t7, t8, t10)";
  "t12 = 0.1e1 + t11";
  "t14 = p_a_zeta_threshold ** (0.1e1 / 0.3e1)";
  "t16 = t12 ** (0.1e1 / 0.3e1)";
  "t18 = lax_cond(t12 <= p_a_zeta_threshold, t14 * p_a_zeta_threshold, t16 * t12)";
  "t19 = r0 ** (0.1e1 / 0.3e1)";
  "t21 = 0.1e1 / r0";
  "t23 = 0.1e1 / tau0";
  "t31 = (s0 * t21 * t23 / 0.8e1) ** (params_a_BLOC_a + params_a_BLOC_b * s0 * t21 * t23 / 0.8e1)";
  "t33 = s0 ** 2";
  "t34 = r0 ** 2";
  "t35 = 0.1e1 / t34";
  "t37 = tau0 ** 2";
  "t38 = 0.1e1 / t37";
  "t39 = t33 * t35 * t38";
  "t42 = (0.1e1 + t39 / 0.64e2) ** 2";
  "t46 = 6 ** (0.1e1 / 0.3e1)";
  "t48 = math.pi ** 2";
  "t49 = t48 ** (0.1e1 / 0.3e1)";
  "t50 = t49 ** 2";
  "t51 = 0.1e1 / t50";
  "t53 = 2 ** (0.1e1 / 0.3e1)";
  "t54 = t53 ** 2";
  "t56 = t19 ** 2";
  "t59 = s0 * t54 / t56 / t34";
  "t67 = tau0 * t54 / t56 / r0 - t59 / 0.8e1";
  "t71 = 0.5e1 / 0.9e1 * t67 * t46 * t51 - 0.1e1";
  "t73 = t46 * t51";
  "t78 = math.sqrt(0.5e1 * params_a_b * t67 * t73 * t71 + 0.9e1)";
  "t84 = 0.27e2 / 0.20e2 * t71 / t78 + t73 * t59 / 0.36e2";
  "t85 = t84 ** 2";
  "t88 = t46 ** 2";
  "t90 = 0.1e1 / t49 / t48";
  "t93 = t34 ** 2";
  "t97 = t33 * t53 / t19 / t93 / r0";
  "t101 = math.sqrt(0.100e3 * t88 * t90 * t97 + 0.162e3 * t39)";
  "t109 = math.sqrt(params_a_e)";
  "t115 = t48 ** 2";
  "t119 = t93 ** 2";
  "t130 = (0.1e1 + t109 * t46 * t51 * t59 / 0.24e2) ** 2";
  "t142 = lax_cond(r0 / 0.2e1 <= p_a_dens_threshold, 0, -0.3e1 / 0.8e1 * t3 / t4 * t18 * t19 * (0.1e1 + params_a_kappa * (0.1e1 - params_a_kappa / (params_a_kappa + ((0.10e2 / 0.81e2 + params_a_c * t31 / t42) * t46 * t51 * t59 / 0.24e2 + 0.146e3 / 0.2025e4 * t85 - 0.73e2 / 0.97200e5 * t84 * t101 + 0.25e2 / 0.472392e6 / params_a_kappa * t88 * t90 * t97 + t109 * t33 * t35 * t38 / 0.720e3 + params_a_e * params_a_mu / t115 * t33 * s0 / t119 / 0.576e3) / t130))))";
  "res = 0.2e1 * t142"]%b.

(* gen_repo/impl/prebuilt/pol/mgga_x_vcml.py *)
Definition pol_mgga_x_vcml : list bstr := [
  "t2 = 3 ** (0.1e1 / 0.3e1)";
  "t3 = math.pi ** (0.1e1 / 0.3e1)";
  "t5 = t2 / t3";
  "t6 = r0 + r1";
  "t7 = 0.1e1 / t6";
  "t10 = 0.2e1 * r0 * t7 <= p_a_zeta_threshold";
  "t11 = p_a_zeta_threshold - 0.1e1";
  "t14 = 0.2e1 * r1 * t7 <= p_a_zeta_threshold";
  "t15 = -t11";
  "t17 = (r0 - r1) * t7";
  "t18 = lax_cond(t14, t15, t17)";
  "t19 = lax_cond(t10, t11, t18)";
  "t20 = t19 + 0.1e1";
  "t22 = p_a_zeta_threshold ** (0.1e1 / 0.3e1)";
  "t23 = t22 * p_a_zeta_threshold";
  "t24 = t20 ** (0.1e1 / 0.3e1)";
  "t26 = lax_cond(t20 <= p_a_zeta_threshold, t23, t24 * t20)";
  "t27 = t6 ** (0.1e1 / 0.3e1)";
  "t29 = 6 ** (0.1e1 / 0.3e1)";
  "t30 = math.pi ** 2";
  "t31 = t30 ** (0.1e1 / 0.3e1)";
  "t32 = t31 ** 2";
  "t33 = 0.1e1 / t32";
  "t34 = t29 * t33";
  "t35 = r0 ** 2";
  "t36 = r0 ** (0.1e1 / 0.3e1)";
  "t37 = t36 ** 2";
  "t40 = s0 / t37 / t35";
  "t46 = t34 * t40 / (0.65124e1 + t34 * t40 / 0.24e2)";
  "t48 = t46 / 0.12e2 - 0.1e1";
  "t49 = t48 ** 2";
  "t50 = t49 ** 2";
  "t53 = t50 * t49";
  "t62 = 0.5e1 / 0.9e1 * (tau0 / t37 / r0 - t40 / 0.8e1) * t29 * t33";
  "t64 = 0.1e5 < t62";
  "t65 = lax_cond(t64, t62, 0.1e5)";
  "t66 = t65 ** 2";
  "t72 = t66 ** 2";
  "t76 = lax_cond(t64, 0.1e5, t62)";
  "t77 = t76 ** 2";
  "t78 = 0.1e1 - t77";
  "t79 = t78 ** 2";
  "t81 = t77 * t76";
  "t88 = lax_cond(0.1e5 <= t62, -0.1e1 / 0.4e1 + 0.3e1 / 0.4e1 / t66 + 0.1e1 / t66 / t65 / 0.16e2 - 0.3e1 / 0.4e1 / t72, t79 * t78 / (0.1e1 + t81 * (0.1e1 + 0.4e1 * t81)))";
  "t89 = t88 ** 2";
  "t90 = t89 ** 2";
  "t91 = t90 * t89";
  "t96 = t90 * t88";
  "t98 = t89 * t88";
  "t100 = t90 * t98";
  "t102 = t50 * t48";
  "t104 = t49 * t48";
  "t106 = t50 * t104";
  "t109 = -0.1e1 / 0.2e1 + 0.3e1 / 0.2e1 * t49";
  "t111 = -0.1e1 / 0.2e1 + 0.3e1 / 0.2e1 * t89";
  "t119 = -0.5e1 / 0.16e2 + 0.231e3 / 0.16e2 * t91 - 0.315e3 / 0.16e2 * t90 + 0.105e3 / 0.16e2 * t89";
  "t122 = -0.57084476241712602813e-1 * t50 - 0.38230940935406268094e0 * t49 + 0.73000610738035552688e-1 * t53 + 0.44142553981357691475e-2 * t91 - 0.12287293765057329462e-1 * t90 + 0.63559222793315408625e-2 * t89 + 0.19451907596748125344e0 * t88 + 0.52279783829707640062e-1 * t96 - 0.5923137049970073438e-2 * t98 - 0.54303814303104071062e-1 * t100 + 0.50197247070683313037e-1 * t102 - 0.8047507298914579188e-2 * t104 - 0.40204197854033482912e-1 * t106 - 0.835331263170036e-3 * t109 * t111 - 0.13135604251829597e-1 * t109 * t88 + 0.5970286163074767e-3 * t48 * t119";
  "t127 = 0.429e3 / 0.16e2 * t100 - 0.693e3 / 0.16e2 * t96 + 0.315e3 / 0.16e2 * t98 - 0.35e2 / 0.16e2 * t88";
  "t133 = 0.63e2 / 0.8e1 * t96 - 0.35e2 / 0.4e1 * t98 + 0.15e2 / 0.8e1 * t88";
  "t138 = 0.3e1 / 0.8e1 + 0.35e2 / 0.8e1 * t90 - 0.15e2 / 0.4e1 * t89";
  "t145 = 0.5e1 / 0.2e1 * t98 - 0.3e1 / 0.2e1 * t88";
  "t152 = 0.5e1 / 0.2e1 * t104 - t46 / 0.8e1 + 0.3e1 / 0.2e1";
  "t173 = 0.23160016166370034e-2 * t48 * t127 + 0.16437722411542371e-2 * t48 * t133 + 0.50995906979556666e-2 * t48 * t138 + 0.12341314639045392e-2 * t48 * t111 + 0.24977311122498513e-2 * t48 * t145 + 0.12131628073942294e0 * t48 * t88 - 0.689695394243961e-3 * t152 * t119 + 0.4308565933608885e-3 * t152 * t127 - 0.19375881298946268e-3 * t152 * t133 - 0.4704436332280876e-2 * t152 * t138 + 0.27822064319562786e-2 * t152 * t145 - 0.7823588139015819e-4 * t152 * t111 - 0.16823429546012295e-1 * t152 * t88 + 0.18939021743243079e-3 * t109 * t127 - 0.9048853909642742e-3 * t109 * t119 + 0.8482767148525194e-4 * t109 * t133";
  "t182 = 0.63e2 / 0.8e1 * t102 - 0.35e2 / 0.4e1 * t104 + 0.5e1 / 0.32e2 * t46 - 0.15e2 / 0.8e1";
  "t193 = 0.3e1 / 0.8e1 + 0.35e2 / 0.8e1 * t50 - 0.15e2 / 0.4e1 * t49";
  "t211 = -0.5e1 / 0.16e2 + 0.231e3 / 0.16e2 * t53 - 0.315e3 / 0.16e2 * t50 + 0.105e3 / 0.16e2 * t49";
  "t218 = -0.8670535705479461e-3 * t109 * t145 + 0.3180493235941731e-3 * t109 * t138 - 0.10249162124576494e-2 * t182 * t138 - 0.3656012084198544e-4 * t182 * t145 + 0.5061925051098745e-2 * t182 * t111 - 0.16609256494831233e-2 * t182 * t88 - 0.1792697304428732e-4 * t193 * t127 + 0.1331797359718674e-3 * t193 * t119 - 0.7261106354828029e-4 * t193 * t133 - 0.2571281595426713e-3 * t193 * t145 + 0.9891355730978566e-3 * t193 * t138 - 0.14878680171769923e-2 * t193 * t111 - 0.21100890252897446e-2 * t193 * t88 - 0.31296536914037784e-2 * t211 * t133 - 0.9195715678311926e-2 * t211 * t145 + 0.8367073496483024e-3 * t211 * t138";
  "t233 = 0.429e3 / 0.16e2 * t106 - 0.693e3 / 0.16e2 * t102 + 0.315e3 / 0.16e2 * t104 - 0.35e2 / 0.192e3 * t46 + 0.35e2 / 0.16e2";
  "t253 = 0.13669196781387441795e1 - 0.7631605623646023e-2 * t211 * t111 + 0.28206838819829017e-2 * t211 * t88 - 0.5194058669188706e-3 * t182 * t127 - 0.38541498256550073e-2 * t182 * t133 - 0.7555456486598222e-2 * t182 * t119 - 0.19095139973664826e-3 * t233 * t119 + 0.38758929812102785e-2 * t233 * t133 - 0.31389079758955066e-3 * t233 * t138 + 0.10726279571787276e-1 * t233 * t145 + 0.17309630990864668e-3 * t233 * t88 - 0.1006770315965861e-1 * t233 * t111 - 0.18156466410673526e-3 * t211 * t127 + 0.1864317026752979e-2 * t211 * t119 - 0.29476504977320184e-3 * t233 * t127 - 0.11145877912279910870e-1 * t46";
  "t259 = lax_cond(r0 <= p_a_dens_threshold, 0, -0.3e1 / 0.8e1 * t5 * t26 * t27 * (t122 + t173 + t218 + t253))";
  "t261 = lax_cond(t10, t15, -t17)";
  "t262 = lax_cond(t14, t11, t261)";
  "t263 = t262 + 0.1e1";
  "t265 = t263 ** (0.1e1 / 0.3e1)";
  "t267 = lax_cond(t263 <= p_a_zeta_threshold, t23, t265 * t263)";
  "t269 = r1 ** 2";
  "t270 = r1 ** (0.1e1 / 0.3e1)";
  "t271 = t270 ** 2";
  "t274 = s2 / t271 / t269";
  "t280 = t34 * t274 / (0.65124e1 + t34 * t274 / 0.24e2)";
  "t282 = t280 / 0.12e2 - 0.1e1";
  "t283 = t282 ** 2";
  "t284 = t283 ** 2";
  "t287 = t284 * t283";
  "t296 = 0.5e1 / 0.9e1 * (tau1 / t271 / r1 - t274 / 0.8e1) * t29 * t33";
  "t298 = 0.1e5 < t296";
  "t299 = lax_cond(t298, t296, 0.1e5)";
  "t300 = t299 ** 2";
  "t306 = t300 ** 2";
  "t310 = lax_cond(t298, 0.1e5, t296)";
  "t311 = t310 ** 2";
  "t312 = 0.1e1 - t311";
  "t313 = t312 ** 2";
  "t315 = t311 * t310";
  "t322 = lax_cond(0.1e5 <= t296, -0.1e1 / 0.4e1 + 0.3e1 / 0.4e1 / t300 + 0.1e1 / t300 / t299 / 0.16e2 - 0.3e1 / 0.4e1 / t306, t313 * t312 / (0.1e1 + t315 * (0.1e1 + 0.4e1 * t315)))";
  "t323 = t322 ** 2";
  "t324 = t323 * t322";
  "t325 = t323 ** 2";
  "t326 = t325 * t324";
  "t328 = t325 * t322";
  "t334 = t325 * t323";
  "t336 = t284 * t282";
  "t338 = t283 * t282";
  "t340 = t284 * t338";
  "t344 = -0.1e1 / 0.2e1 + 0.3e1 / 0.2e1 * t283";
  "t347 = 0.3e1 / 0.8e1 + 0.35e2 / 0.8e1 * t325 - 0.15e2 / 0.4e1 * t323";
  "t351 = -0.1e1 / 0.2e1 + 0.3e1 / 0.2e1 * t323";
  "t354 = -0.57084476241712602813e-1 * t284 - 0.38230940935406268094e0 * t283 + 0.73000610738035552688e-1 * t287 - 0.54303814303104071062e-1 * t326 + 0.52279783829707640062e-1 * t328 - 0.5923137049970073438e-2 * t324 + 0.19451907596748125344e0 * t322 - 0.12287293765057329462e-1 * t325 + 0.63559222793315408625e-2 * t323 + 0.44142553981357691475e-2 * t334 + 0.50197247070683313037e-1 * t336 - 0.8047507298914579188e-2 * t338 - 0.40204197854033482912e-1 * t340 - 0.11145877912279910870e-1 * t280 + 0.3180493235941731e-3 * t344 * t347 - 0.835331263170036e-3 * t344 * t351";
  "t357 = 0.5e1 / 0.2e1 * t324 - 0.3e1 / 0.2e1 * t322";
  "t366 = 0.429e3 / 0.16e2 * t326 - 0.693e3 / 0.16e2 * t328 + 0.315e3 / 0.16e2 * t324 - 0.35e2 / 0.16e2 * t322";
  "t372 = 0.63e2 / 0.8e1 * t328 - 0.35e2 / 0.4e1 * t324 + 0.15e2 / 0.8e1 * t322";
  "t378 = -0.5e1 / 0.16e2 + 0.231e3 / 0.16e2 * t334 - 0.315e3 / 0.16e2 * t325 + 0.105e3 / 0.16e2 * t323";
  "t391 = 0.3e1 / 0.8e1 + 0.35e2 / 0.8e1 * t284 - 0.15e2 / 0.4e1 * t283";
  "t400 = 0.5e1 / 0.2e1 * t338 - t280 / 0.8e1 + 0.3e1 / 0.2e1";
  "t409 = -0.8670535705479461e-3 * t344 * t357 - 0.13135604251829597e-1 * t344 * t322 + 0.23160016166370034e-2 * t282 * t366 + 0.16437722411542371e-2 * t282 * t372 + 0.5970286163074767e-3 * t282 * t378 + 0.50995906979556666e-2 * t282 * t347 + 0.24977311122498513e-2 * t282 * t357 + 0.12131628073942294e0 * t282 * t322 + 0.12341314639045392e-2 * t282 * t351 - 0.14878680171769923e-2 * t391 * t351 - 0.2571281595426713e-3 * t391 * t357 - 0.21100890252897446e-2 * t391 * t322 + 0.4308565933608885e-3 * t400 * t366 - 0.19375881298946268e-3 * t400 * t372 - 0.689695394243961e-3 * t400 * t378 - 0.4704436332280876e-2 * t400 * t347";
  "t426 = 0.63e2 / 0.8e1 * t336 - 0.35e2 / 0.4e1 * t338 + 0.5e1 / 0.32e2 * t280 - 0.15e2 / 0.8e1";
  "t448 = -0.5e1 / 0.16e2 + 0.231e3 / 0.16e2 * t287 - 0.315e3 / 0.16e2 * t284 + 0.105e3 / 0.16e2 * t283";
  "t451 = 0.27822064319562786e-2 * t400 * t357 - 0.7823588139015819e-4 * t400 * t351 - 0.16823429546012295e-1 * t400 * t322 + 0.18939021743243079e-3 * t344 * t366 - 0.9048853909642742e-3 * t344 * t378 + 0.8482767148525194e-4 * t344 * t372 - 0.10249162124576494e-2 * t426 * t347 - 0.38541498256550073e-2 * t426 * t372 - 0.3656012084198544e-4 * t426 * t357 + 0.5061925051098745e-2 * t426 * t351 - 0.16609256494831233e-2 * t426 * t322 - 0.1792697304428732e-4 * t391 * t366 + 0.1331797359718674e-3 * t391 * t378 - 0.7261106354828029e-4 * t391 * t372 + 0.9891355730978566e-3 * t391 * t347 - 0.18156466410673526e-3 * t448 * t366";
  "t472 = 0.429e3 / 0.16e2 * t340 - 0.693e3 / 0.16e2 * t336 + 0.315e3 / 0.16e2 * t338 - 0.35e2 / 0.192e3 * t280 + 0.35e2 / 0.16e2";
  "t487 = 0.13669196781387441795e1 + 0.1864317026752979e-2 * t448 * t378 - 0.31296536914037784e-2 * t448 * t372 + 0.8367073496483024e-3 * t448 * t347 - 0.7631605623646023e-2 * t448 * t351 - 0.9195715678311926e-2 * t448 * t357 + 0.28206838819829017e-2 * t448 * t322 - 0.5194058669188706e-3 * t426 * t366 - 0.7555456486598222e-2 * t426 * t378 - 0.19095139973664826e-3 * t472 * t378 - 0.29476504977320184e-3 * t472 * t366 + 0.38758929812102785e-2 * t472 * t372 - 0.31389079758955066e-3 * t472 * t347 + 0.10726279571787276e-1 * t472 * t357 - 0.1006770315965861e-1 * t472 * t351 + 0.17309630990864668e-3 * t472 * t322";
  "t493 = lax_cond(r1 <= p_a_dens_threshold, 0, -0.3e1 / 0.8e1 * t5 * t267 * t27 * (t354 + t409 + t451 + t487))";
  "res = t259 + t493"]%b.

(* gen_repo/impl/prebuilt/unpol/mgga_x_vcml.py *)
Definition unpol_mgga_x_vcml : list bstr := [
  "t3 = 3 ** (0.1e1 / 0.3e1)";
  "t4 = math.pi ** (0.1e1 / 0.3e1)";
  "t7 = 0.1e1 <= p_a_zeta_threshold";
  "t8 = p_a_zeta_threshold - 0.1e1";
  "t10 = lax_cond(t7, -t8, 0)";
  "t11 = lax_cond(t7, t8, t10)";
  "t12 = t11 + 0.1e1";
  "t14 = p_a_zeta_threshold ** (0.1e1 / 0.3e1)";
  "t16 = t12 ** (0.1e1 / 0.3e1)";
  "t18 = lax_cond(t12 <= p_a_zeta_threshold, t14 * p_a_zeta_threshold, t16 * t12)";
  "t19 = r0 ** (0.1e1 / 0.3e1)";
  "t21 = 6 ** (0.1e1 / 0.3e1)";
  "t22 = math.pi ** 2";
  "t23 = t22 ** (0.1e1 / 0.3e1)";
  "t24 = t23 ** 2";
  "t25 = 0.1e1 / t24";
  "t26 = t21 * t25";
  "t28 = 2 ** (0.1e1 / 0.3e1)";
  "t29 = t28 ** 2";
  "t30 = r0 ** 2";
  "t31 = t19 ** 2";
  "t33 = 0.1e1 / t31 / t30";
  "t36 = s0 * t29 * t33";
  "t42 = t26 * s0 * t29 * t33 / (0.65124e1 + t26 * t36 / 0.24e2)";
  "t44 = t42 / 0.12e2 - 0.1e1";
  "t45 = t44 ** 2";
  "t46 = t45 ** 2";
  "t49 = t46 * t45";
  "t59 = 0.5e1 / 0.9e1 * (tau0 * t29 / t31 / r0 - t36 / 0.8e1) * t21 * t25";
  "t61 = 0.1e5 < t59";
  "t62 = lax_cond(t61, t59, 0.1e5)";
  "t63 = t62 ** 2";
  "t69 = t63 ** 2";
  "t73 = lax_cond(t61, 0.1e5, t59)";
  "t74 = t73 ** 2";
  "t75 = 0.1e1 - t74";
  "t76 = t75 ** 2";
  "t78 = t74 * t73";
  "t85 = lax_cond(0.1e5 <= t59, 0.3e1 / 0.4e1 / t63 + 0.1e1 / t63 / t62 / 0.16e2 - 0.3e1 / 0.4e1 / t69 - 0.1e1 / 0.4e1, t76 * t75 / (0.1e1 + t78 * (0.1e1 + 0.4e1 * t78)))";
  "t86 = t85 ** 2";
  "t87 = t86 * t85";
  "t88 = t86 ** 2";
  "t89 = t88 * t87";
  "t91 = t88 * t85";
  "t97 = t88 * t86";
  "t99 = t45 * t44";
  "t101 = t46 * t44";
  "t103 = t46 * t99";
  "t107 = 0.5e1 / 0.2e1 * t87 - 0.3e1 / 0.2e1 * t85";
  "t112 = 0.3e1 / 0.8e1 + 0.35e2 / 0.8e1 * t88 - 0.15e2 / 0.4e1 * t86";
  "t118 = 0.63e2 / 0.8e1 * t91 - 0.35e2 / 0.4e1 * t87 + 0.15e2 / 0.8e1 * t85";
  "t121 = -0.57084476241712602813e-1 * t46 - 0.38230940935406268094e0 * t45 + 0.73000610738035552688e-1 * t49 - 0.54303814303104071062e-1 * t89 + 0.52279783829707640062e-1 * t91 - 0.5923137049970073438e-2 * t87 + 0.19451907596748125344e0 * t85 - 0.12287293765057329462e-1 * t88 + 0.63559222793315408625e-2 * t86 + 0.44142553981357691475e-2 * t97 - 0.8047507298914579188e-2 * t99 + 0.50197247070683313037e-1 * t101 - 0.40204197854033482912e-1 * t103 + 0.24977311122498513e-2 * t44 * t107 + 0.50995906979556666e-2 * t44 * t112 + 0.16437722411542371e-2 * t44 * t118";
  "t126 = 0.429e3 / 0.16e2 * t89 - 0.693e3 / 0.16e2 * t91 + 0.315e3 / 0.16e2 * t87 - 0.35e2 / 0.16e2 * t85";
  "t130 = -0.1e1 / 0.2e1 + 0.3e1 / 0.2e1 * t45";
  "t134 = -0.1e1 / 0.2e1 + 0.3e1 / 0.2e1 * t86";
  "t146 = -0.5e1 / 0.16e2 + 0.231e3 / 0.16e2 * t97 - 0.315e3 / 0.16e2 * t88 + 0.105e3 / 0.16e2 * t86";
  "t153 = 0.5e1 / 0.2e1 * t99 - t42 / 0.8e1 + 0.3e1 / 0.2e1";
  "t168 = 0.3e1 / 0.8e1 + 0.35e2 / 0.8e1 * t46 - 0.15e2 / 0.4e1 * t45";
  "t173 = 0.23160016166370034e-2 * t44 * t126 - 0.13135604251829597e-1 * t130 * t85 - 0.835331263170036e-3 * t130 * t134 - 0.8670535705479461e-3 * t130 * t107 + 0.3180493235941731e-3 * t130 * t112 + 0.8482767148525194e-4 * t130 * t118 - 0.9048853909642742e-3 * t130 * t146 + 0.18939021743243079e-3 * t130 * t126 - 0.16823429546012295e-1 * t153 * t85 - 0.7823588139015819e-4 * t153 * t134 + 0.27822064319562786e-2 * t153 * t107 - 0.4704436332280876e-2 * t153 * t112 + 0.12131628073942294e0 * t44 * t85 + 0.12341314639045392e-2 * t44 * t134 - 0.1792697304428732e-4 * t168 * t126 + 0.1331797359718674e-3 * t168 * t146";
  "t196 = -0.5e1 / 0.16e2 + 0.231e3 / 0.16e2 * t49 - 0.315e3 / 0.16e2 * t46 + 0.105e3 / 0.16e2 * t45";
  "t204 = 0.63e2 / 0.8e1 * t101 - 0.35e2 / 0.4e1 * t99 + 0.5e1 / 0.32e2 * t42 - 0.15e2 / 0.8e1";
  "t215 = -0.7261106354828029e-4 * t168 * t118 - 0.2571281595426713e-3 * t168 * t107 + 0.9891355730978566e-3 * t168 * t112 - 0.14878680171769923e-2 * t168 * t134 - 0.21100890252897446e-2 * t168 * t85 - 0.689695394243961e-3 * t153 * t146 + 0.4308565933608885e-3 * t153 * t126 - 0.19375881298946268e-3 * t153 * t118 + 0.5970286163074767e-3 * t44 * t146 - 0.7631605623646023e-2 * t196 * t134 + 0.28206838819829017e-2 * t196 * t85 - 0.5194058669188706e-3 * t204 * t126 - 0.38541498256550073e-2 * t204 * t118 - 0.7555456486598222e-2 * t204 * t146 - 0.10249162124576494e-2 * t204 * t112 - 0.3656012084198544e-4 * t204 * t107";
  "t224 = 0.429e3 / 0.16e2 * t103 - 0.693e3 / 0.16e2 * t101 + 0.315e3 / 0.16e2 * t99 - 0.35e2 / 0.192e3 * t42 + 0.35e2 / 0.16e2";
  "t250 = 0.13669196781387441795e1 + 0.5061925051098745e-2 * t204 * t134 - 0.16609256494831233e-2 * t204 * t85 + 0.10726279571787276e-1 * t224 * t107 - 0.1006770315965861e-1 * t224 * t134 + 0.17309630990864668e-3 * t224 * t85 - 0.18156466410673526e-3 * t196 * t126 + 0.1864317026752979e-2 * t196 * t146 - 0.31296536914037784e-2 * t196 * t118 - 0.9195715678311926e-2 * t196 * t107 + 0.8367073496483024e-3 * t196 * t112 - 0.19095139973664826e-3 * t224 * t146 - 0.29476504977320184e-3 * t224 * t126 + 0.38758929812102785e-2 * t224 * t118 - 0.31389079758955066e-3 * t224 * t112 - 0.11145877912279910870e-1 * t42";
  "t256 = lax_cond(r0 / 0.2e1 <= p_a_dens_threshold, 0, -0.3e1 / 0.8e1 * t3 / t4 * t18 * t19 * (t121 + t173 + t215 + t250))";
  "res = 0.2e1 * t256"]%b.

(* gen_repo/impl/prebuilt/pol/mgga_x_vt84.py *)
Definition pol_mgga_x_vt84 : list bstr := [
  "t2 = 3 ** (0.1e1 / 0.3e1)";
  "t3 = math.pi ** (0.1e1 / 0.3e1)";
  "t5 = t2 / t3";
  "t6 = r0 + r1";
  "t7 = 0.1e1 / t6";
  "t10 = 0.2e1 * r0 * t7 <= p_a_zeta_threshold";
  "t11 = p_a_zeta_threshold - 0.1e1";
  "t14 = 0.2e1 * r1 * t7 <= p_a_zeta_threshold";
  "t15 = -t11";
  "t17 = (r0 - r1) * t7";
  "t18 = lax_cond(t14, t15, t17)";
  "t19 = lax_cond(t10, t11, t18)";
  "t20 = 0.1e1 + t19";
  "t22 = p_a_zeta_threshold ** (0.1e1 / 0.3e1)";
  "t23 = t22 * p_a_zeta_threshold";
  "t24 = t20 ** (0.1e1 / 0.3e1)";
  "t26 = lax_cond(t20 <= p_a_zeta_threshold, t23, t24 * t20)";
  "t27 = t6 ** (0.1e1 / 0.3e1)";
  "t29 = s0 ** 2";
  "t30 = t29 * s0";
  "t31 = r0 ** 2";
  "t35 = tau0 ** 2";
  "t41 = t29 / t31 / t35";
  "t44 = (0.1e1 + t41 / 0.64e2) ** 2";
  "t50 = 6 ** (0.1e1 / 0.3e1)";
  "t52 = math.pi ** 2";
  "t53 = t52 ** (0.1e1 / 0.3e1)";
  "t54 = t53 ** 2";
  "t55 = 0.1e1 / t54";
  "t57 = r0 ** (0.1e1 / 0.3e1)";
  "t58 = t57 ** 2";
  "t60 = 0.1e1 / t58 / t31";
  "t67 = s0 * t60";
  "t70 = (tau0 / t58 / r0 - t67 / 0.8e1) * t50";
  "t73 = 0.5e1 / 0.9e1 * t70 * t55 - 0.1e1";
  "t78 = math.sqrt(0.1e1 + 0.22222222222222222222e0 * t70 * t55 * t73)";
  "t82 = t50 * t55";
  "t83 = t82 * t67";
  "t85 = 0.9e1 / 0.20e2 * t73 / t78 + t83 / 0.36e2";
  "t86 = t85 ** 2";
  "t89 = t50 ** 2";
  "t92 = t89 / t53 / t52";
  "t93 = t31 ** 2";
  "t98 = t92 * t29 / t57 / t93 / r0";
  "t101 = math.sqrt(0.162e3 * t41 + 0.50e2 * t98)";
  "t106 = t52 ** 2";
  "t107 = 0.1e1 / t106";
  "t109 = t93 ** 2";
  "t113 = (0.10e2 / 0.81e2 + 0.41982617187500000000e-2 * t30 / t31 / r0 / t35 / tau0 / t44) * t50 * t55 * s0 * t60 / 0.24e2 + 0.146e3 / 0.2025e4 * t86 - 0.73e2 / 0.97200e5 * t85 * t101 + 0.26505934954444613795e-4 * t98 + 0.19577914932045745128e-2 * t41 + 0.10647076474622770919e-3 * t107 * t30 / t109";
  "t116 = (0.1e1 + 0.58733744796137235383e-1 * t83) ** 2";
  "t118 = t113 / t116";
  "t120 = math.exp(-0.18630000000000000000e-3 * t118)";
  "t125 = t113 ** 2";
  "t126 = t116 ** 2";
  "t130 = math.exp(-0.15090300000000000000e-2 * t125 / t126)";
  "t141 = lax_cond(r0 <= p_a_dens_threshold, 0, -0.3e1 / 0.8e1 * t5 * t26 * t27 * (0.1e1 + t118 * t120 / (0.1e1 + t118) + (0.1e1 - t130) * (0.10e2 / 0.81e2 / t113 * t116 - 0.1e1)))";
  "t143 = lax_cond(t10, t15, -t17)";
  "t144 = lax_cond(t14, t11, t143)";
  "t145 = 0.1e1 + t144";
  "t147 = t145 ** (0.1e1 / 0.3e1)";
  "t149 = lax_cond(t145 <= p_a_zeta_threshold, t23, t147 * t145)";
  "t151 = s2 ** 2";
  "t152 = t151 * s2";
  "t153 = r1 ** 2";
  "t157 = tau1 ** 2";
  "t163 = t151 / t153 / t157";
  "t166 = (0.1e1 + t163 / 0.64e2) ** 2";
  "t174 = r1 ** (0.1e1 / 0.3e1)";
  "t175 = t174 ** 2";
  "t177 = 0.1e1 / t175 / t153";
  "t184 = s2 * t177";
  "t187 = (tau1 / t175 / r1 - t184 / 0.8e1) * t50";
  "t190 = 0.5e1 / 0.9e1 * t187 * t55 - 0.1e1";
  "t195 = math.sqrt(0.1e1 + 0.22222222222222222222e0 * t187 * t55 * t190)";
  "t199 = t82 * t184";
  "t201 = 0.9e1 / 0.20e2 * t190 / t195 + t199 / 0.36e2";
  "t202 = t201 ** 2";
  "t205 = t153 ** 2";
  "t210 = t92 * t151 / t174 / t205 / r1";
  "t213 = math.sqrt(0.162e3 * t163 + 0.50e2 * t210)";
  "t219 = t205 ** 2";
  "t223 = (0.10e2 / 0.81e2 + 0.41982617187500000000e-2 * t152 / t153 / r1 / t157 / tau1 / t166) * t50 * t55 * s2 * t177 / 0.24e2 + 0.146e3 / 0.2025e4 * t202 - 0.73e2 / 0.97200e5 * t201 * t213 + 0.26505934954444613795e-4 * t210 + 0.19577914932045745128e-2 * t163 + 0.10647076474622770919e-3 * t107 * t152 / t219";
  "t226 = (0.1e1 + 0.58733744796137235383e-1 * t199) ** 2";
  "t228 = t223 / t226";
  "t230 = math.exp(-0.18630000000000000000e-3 * t228)";
  "t235 = t223 ** 2";
  "t236 = t226 ** 2";
  "t240 = math.exp(-0.15090300000000000000e-2 * t235 / t236)";
  "t251 = lax_cond(r1 <= p_a_dens_threshold, 0, -0.3e1 / 0.8e1 * t5 * t149 * t27 * (0.1e1 + t228 * t230 / (0.1e1 + t228) + (0.1e1 - t240) * (0.10e2 / 0.81e2 / t223 * t226 - 0.1e1)))";
  "res = t141 + t251"]%b.

(* gen_repo/impl/prebuilt/unpol/mgga_x_vt84.py *)
Definition unpol_mgga_x_vt84 : list bstr := [
  "t3 = 3 ** (0.1e1 / 0.3e1)";
  "t4 = math.pi ** (0.1e1 / 0.3e1)";
  "t7 = 0.1e1 <= p_a_zeta_threshold";
  "t8 = p_a_zeta_threshold - 0.1e1";
  "t10 = lax_cond(t7, -t8, 0)";
  "t11 = lax_cond(t7, t8, t10)";
  "t12 = 0.1e1 + t11";
  "t14 = p_a_zeta_threshold ** (0.1e1 / 0.3e1)";
  "t16 = t12 ** (0.1e1 / 0.3e1)";
  "t18 = lax_cond(t12 <= p_a_zeta_threshold, t14 * p_a_zeta_threshold, t16 * t12)";
  "t19 = r0 ** (0.1e1 / 0.3e1)";
  "t21 = s0 ** 2";
  "t22 = t21 * s0";
  "t23 = r0 ** 2";
  "t27 = tau0 ** 2";
  "t33 = t21 / t23 / t27";
  "t36 = (0.1e1 + t33 / 0.64e2) ** 2";
  "t42 = 6 ** (0.1e1 / 0.3e1)";
  "t44 = math.pi ** 2";
  "t45 = t44 ** (0.1e1 / 0.3e1)";
  "t46 = t45 ** 2";
  "t47 = 0.1e1 / t46";
  "t49 = 2 ** (0.1e1 / 0.3e1)";
  "t50 = t49 ** 2";
  "t52 = t19 ** 2";
  "t55 = s0 * t50 / t52 / t23";
  "t64 = (tau0 * t50 / t52 / r0 - t55 / 0.8e1) * t42";
  "t67 = 0.5e1 / 0.9e1 * t64 * t47 - 0.1e1";
  "t72 = math.sqrt(0.1e1 + 0.22222222222222222222e0 * t64 * t47 * t67)";
  "t77 = t42 * t47 * t55";
  "t79 = 0.9e1 / 0.20e2 * t67 / t72 + t77 / 0.36e2";
  "t80 = t79 ** 2";
  "t83 = t42 ** 2";
  "t88 = t23 ** 2";
  "t93 = t83 / t45 / t44 * t21 * t49 / t19 / t88 / r0";
  "t96 = math.sqrt(0.162e3 * t33 + 0.100e3 * t93)";
  "t101 = t44 ** 2";
  "t104 = t88 ** 2";
  "t108 = (0.10e2 / 0.81e2 + 0.41982617187500000000e-2 * t22 / t23 / r0 / t27 / tau0 / t36) * t42 * t47 * t55 / 0.24e2 + 0.146e3 / 0.2025e4 * t80 - 0.73e2 / 0.97200e5 * t79 * t96 + 0.53011869908889227590e-4 * t93 + 0.19577914932045745128e-2 * t33 + 0.42588305898491083676e-3 / t101 * t22 / t104";
  "t111 = (0.1e1 + 0.58733744796137235383e-1 * t77) ** 2";
  "t113 = t108 / t111";
  "t115 = math.exp(-0.18630000000000000000e-3 * t113)";
  "t120 = t108 ** 2";
  "t121 = t111 ** 2";
  "t125 = math.exp(-0.15090300000000000000e-2 * t120 / t121)";
  "t136 = lax_cond(r0 / 0.2e1 <= p_a_dens_threshold, 0, -0.3e1 / 0.8e1 * t3 / t4 * t18 * t19 * (0.1e1 + t113 * t115 / (0.1e1 + t113) + (0.1e1 - t125) * (0.10e2 / 0.81e2 / t108 * t111 - 0.1e1)))";
  "res = 0.2e1 * t136"]%b.

(* gen_repo/impl/prebuilt/pol/mgga_xc_b97mv.py *)
Definition pol_mgga_xc_b97mv : list bstr := [
  "t1 = r0 - r1";
  "t2 = r0 + r1";
  "t4 = t1 / t2";
  "t5 = 0.1e1 + t4";
  "t6 = t5 <= p_a_zeta_threshold";
  "t7 = lax_cond(t6, p_a_zeta_threshold, t5)";
  "t8 = r0 <= p_a_dens_threshold";
  "t9 = 3 ** (0.1e1 / 0.3e1)";
  "t10 = math.pi ** (0.1e1 / 0.3e1)";
  "t12 = t9 / t10";
  "t14 = p_a_zeta_threshold ** (0.1e1 / 0.3e1)";
  "t15 = t14 * p_a_zeta_threshold";
  "t16 = 2 ** (0.1e1 / 0.3e1)";
  "t18 = lax_cond(0.2e1 <= p_a_zeta_threshold, t15, 0.2e1 * t16)";
  "t19 = t2 ** (0.1e1 / 0.3e1)";
  "t20 = t18 * t19";
  "t23 = (t2 / r0) ** (0.1e1 / 0.3e1)";
  "t24 = 0.1e1 / t23";
  "t28 = lax_cond(t8, 0, -0.3e1 / 0.8e1 * t12 * t20 * t24)";
  "t29 = 0.0e0 <= p_a_dens_threshold";
  "t31 = lax_cond(0.0e0 <= p_a_zeta_threshold, t15, 0)";
  "t32 = t31 * t19";
  "t36 = lax_cond(t29, 0, -0.3e1 / 0.8e1 * t12 * t32 * t24)";
  "t39 = params_a_c_x[0]";
  "t40 = params_a_c_x[1]";
  "t42 = r0 ** 2";
  "t43 = r0 ** (0.1e1 / 0.3e1)";
  "t44 = t43 ** 2";
  "t46 = 0.1e1 / t44 / t42";
  "t47 = s0 * t46";
  "t49 = 0.1e1 + 0.4e-2 * t47";
  "t50 = 0.1e1 / t49";
  "t54 = params_a_c_x[2]";
  "t55 = s0 ** 2";
  "t57 = t42 ** 2";
  "t60 = 0.1e1 / t43 / t57 / r0";
  "t61 = t49 ** 2";
  "t66 = params_a_c_x[3]";
  "t67 = 6 ** (0.1e1 / 0.3e1)";
  "t68 = t67 ** 2";
  "t69 = math.pi ** 2";
  "t70 = t69 ** (0.1e1 / 0.3e1)";
  "t71 = t70 ** 2";
  "t72 = t68 * t71";
  "t73 = 0.3e1 / 0.10e2 * t72";
  "t76 = tau0 / t44 / r0";
  "t77 = t73 - t76";
  "t79 = t73 + t76";
  "t80 = 0.1e1 / t79";
  "t82 = params_a_c_x[4]";
  "t91 = 0.1e1 - t4";
  "t92 = t91 <= p_a_zeta_threshold";
  "t93 = lax_cond(t92, p_a_zeta_threshold, t91)";
  "t94 = r1 <= p_a_dens_threshold";
  "t97 = (t2 / r1) ** (0.1e1 / 0.3e1)";
  "t98 = 0.1e1 / t97";
  "t102 = lax_cond(t94, 0, -0.3e1 / 0.8e1 * t12 * t20 * t98)";
  "t106 = lax_cond(t29, 0, -0.3e1 / 0.8e1 * t12 * t32 * t98)";
  "t110 = r1 ** 2";
  "t111 = r1 ** (0.1e1 / 0.3e1)";
  "t112 = t111 ** 2";
  "t114 = 0.1e1 / t112 / t110";
  "t115 = s2 * t114";
  "t117 = 0.1e1 + 0.4e-2 * t115";
  "t118 = 0.1e1 / t117";
  "t122 = s2 ** 2";
  "t124 = t110 ** 2";
  "t127 = 0.1e1 / t111 / t124 / r1";
  "t128 = t117 ** 2";
  "t135 = tau1 / t112 / r1";
  "t136 = t73 - t135";
  "t138 = t73 + t135";
  "t139 = 0.1e1 / t138";
  "t149 = jnp.logical_or(t8, t6)";
  "t151 = (0.1e1 / math.pi) ** (0.1e1 / 0.3e1)";
  "t152 = t9 * t151";
  "t153 = 4 ** (0.1e1 / 0.3e1)";
  "t154 = t153 ** 2";
  "t155 = t152 * t154";
  "t156 = 0.1e1 / t19";
  "t157 = t156 * t16";
  "t158 = 0.1e1 / t14";
  "t159 = t5 ** (0.1e1 / 0.3e1)";
  "t161 = lax_cond(t6, t158, 0.1e1 / t159)";
  "t163 = t155 * t157 * t161";
  "t166 = math.sqrt(t163)";
  "t169 = t163 ** 0.15e1";
  "t171 = t9 ** 2";
  "t172 = t151 ** 2";
  "t173 = t171 * t172";
  "t174 = t173 * t153";
  "t175 = t19 ** 2";
  "t176 = 0.1e1 / t175";
  "t177 = t16 ** 2";
  "t178 = t176 * t177";
  "t179 = t161 ** 2";
  "t181 = t174 * t178 * t179";
  "t187 = math.log(0.1e1 + 0.16081979498692535067e2 / (0.37978500000000000000e1 * t166 + 0.89690000000000000000e0 * t163 + 0.20477500000000000000e0 * t169 + 0.12323500000000000000e0 * t181))";
  "t189 = 0.621814e-1 * (0.1e1 + 0.53425000000000000000e-1 * t163) * t187";
  "t193 = 0.1e1 / (0.2e1 * t16 - 0.2e1)";
  "t194 = (t18 + t31 - 0.2e1) * t193";
  "t205 = math.log(0.1e1 + 0.32163958997385070134e2 / (0.70594500000000000000e1 * t166 + 0.15494250000000000000e1 * t163 + 0.42077500000000000000e0 * t169 + 0.15629250000000000000e0 * t181))";
  "t218 = math.log(0.1e1 + 0.29608749977793437516e2 / (0.51785000000000000000e1 * t166 + 0.90577500000000000000e0 * t163 + 0.11003250000000000000e0 * t169 + 0.12417750000000000000e0 * t181))";
  "t219 = (0.1e1 + 0.27812500000000000000e-1 * t163) * t218";
  "t228 = lax_cond(t149, 0, t7 * (-t189 + t194 * (-0.3109070e-1 * (0.1e1 + 0.51370000000000000000e-1 * t163) * t205 + t189 - 0.19751673498613801407e-1 * t219) + 0.19751673498613801407e-1 * t194 * t219) / 0.2e1)";
  "t229 = params_a_c_ss[0]";
  "t230 = params_a_c_ss[1]";
  "t234 = (0.1e1 + 0.2e0 * t47) ** 2";
  "t235 = 0.1e1 / t234";
  "t239 = params_a_c_ss[2]";
  "t242 = params_a_c_ss[3]";
  "t243 = t77 ** 2";
  "t246 = t79 ** 2";
  "t251 = t55 * t60 * t235";
  "t254 = params_a_c_ss[4]";
  "t255 = t243 ** 2";
  "t257 = t246 ** 2";
  "t264 = jnp.logical_or(t94, t92)";
  "t265 = t91 ** (0.1e1 / 0.3e1)";
  "t267 = lax_cond(t92, t158, 0.1e1 / t265)";
  "t269 = t155 * t157 * t267";
  "t272 = math.sqrt(t269)";
  "t275 = t269 ** 0.15e1";
  "t277 = t267 ** 2";
  "t279 = t174 * t178 * t277";
  "t285 = math.log(0.1e1 + 0.16081979498692535067e2 / (0.37978500000000000000e1 * t272 + 0.89690000000000000000e0 * t269 + 0.20477500000000000000e0 * t275 + 0.12323500000000000000e0 * t279))";
  "t287 = 0.621814e-1 * (0.1e1 + 0.53425000000000000000e-1 * t269) * t285";
  "t298 = math.log(0.1e1 + 0.32163958997385070134e2 / (0.70594500000000000000e1 * t272 + 0.15494250000000000000e1 * t269 + 0.42077500000000000000e0 * t275 + 0.15629250000000000000e0 * t279))";
  "t311 = math.log(0.1e1 + 0.29608749977793437516e2 / (0.51785000000000000000e1 * t272 + 0.90577500000000000000e0 * t269 + 0.11003250000000000000e0 * t275 + 0.12417750000000000000e0 * t279))";
  "t312 = (0.1e1 + 0.27812500000000000000e-1 * t269) * t311";
  "t321 = lax_cond(t264, 0, t93 * (-t287 + t194 * (-0.3109070e-1 * (0.1e1 + 0.51370000000000000000e-1 * t269) * t298 + t287 - 0.19751673498613801407e-1 * t312) + 0.19751673498613801407e-1 * t194 * t312) / 0.2e1)";
  "t325 = (0.1e1 + 0.2e0 * t115) ** 2";
  "t326 = 0.1e1 / t325";
  "t332 = t136 ** 2";
  "t335 = t138 ** 2";
  "t340 = t122 * t127 * t326";
  "t343 = t332 ** 2";
  "t345 = t335 ** 2";
  "t353 = t152 * t154 * t156";
  "t356 = math.sqrt(t353)";
  "t359 = t353 ** 0.15e1";
  "t362 = t173 * t153 * t176";
  "t368 = math.log(0.1e1 + 0.16081979498692535067e2 / (0.37978500000000000000e1 * t356 + 0.89690000000000000000e0 * t353 + 0.20477500000000000000e0 * t359 + 0.12323500000000000000e0 * t362))";
  "t370 = 0.621814e-1 * (0.1e1 + 0.53425000000000000000e-1 * t353) * t368";
  "t371 = t1 ** 2";
  "t372 = t371 ** 2";
  "t373 = t2 ** 2";
  "t374 = t373 ** 2";
  "t378 = lax_cond(t6, t15, t159 * t5)";
  "t380 = lax_cond(t92, t15, t265 * t91)";
  "t382 = (t378 + t380 - 0.2e1) * t193";
  "t393 = math.log(0.1e1 + 0.32163958997385070134e2 / (0.70594500000000000000e1 * t356 + 0.15494250000000000000e1 * t353 + 0.42077500000000000000e0 * t359 + 0.15629250000000000000e0 * t362))";
  "t406 = math.log(0.1e1 + 0.29608749977793437516e2 / (0.51785000000000000000e1 * t356 + 0.90577500000000000000e0 * t353 + 0.11003250000000000000e0 * t359 + 0.12417750000000000000e0 * t362))";
  "t407 = (0.1e1 + 0.27812500000000000000e-1 * t353) * t406";
  "t417 = t47 + t115";
  "t421 = 0.1e1 + 0.30000000000000000000e-2 * t47 + 0.30000000000000000000e-2 * t115";
  "t426 = t417 ** 2";
  "t429 = t421 ** 2";
  "t437 = 0.3e1 / 0.10e2 * t72 * (t76 + t135)";
  "t439 = 0.2e1 * t76 * t135";
  "t440 = t437 - t439";
  "t442 = t437 + t439";
  "t446 = t440 ** 2";
  "t449 = t442 ** 2";
  "res = t7 * (t28 + t36) * (t39 + 0.4e-2 * t40 * s0 * t46 * t50 + 0.16e-4 * t54 * t55 * t60 / t61 + t66 * t77 * t80 + 0.4e-2 * t82 * t77 * t80 * t47 * t50) / 0.2e1 + t93 * (t102 + t106) * (t39 + 0.4e-2 * t40 * s2 * t114 * t118 + 0.16e-4 * t54 * t122 * t127 / t128 + t66 * t136 * t139 + 0.4e-2 * t82 * t136 * t139 * t115 * t118) / 0.2e1 + t228 * (t229 + 0.4e-1 * t230 * t55 * t60 * t235 + t239 * t77 * t80 + 0.4e-1 * t242 * t243 * t77 / t246 / t79 * t251 + 0.4e-1 * t254 * t255 / t257 * t251) + t321 * (t229 + 0.4e-1 * t230 * t122 * t127 * t326 + t239 * t136 * t139 + 0.4e-1 * t242 * t332 * t136 / t335 / t138 * t340 + 0.4e-1 * t254 * t343 / t345 * t340) + (-t370 + t372 / t374 * t382 * (-0.3109070e-1 * (0.1e1 + 0.51370000000000000000e-1 * t353) * t393 + t370 - 0.19751673498613801407e-1 * t407) + 0.19751673498613801407e-1 * t382 * t407 - t228 - t321) * (params_a_c_os[0] + 0.30000000000000000000e-2 * params_a_c_os[1] * t417 / t421 + 0.27000000000000000000e-7 * params_a_c_os[2] * t426 * t417 / t429 / t421 + params_a_c_os[3] * t440 / t442 + 0.90000000000000000000e-5 * params_a_c_os[4] * t446 * t440 / t449 / t442 * t426 / t429)"]%b.

(* gen_repo/impl/prebuilt/unpol/mgga_xc_b97mv.py *)
Definition unpol_mgga_xc_b97mv : list bstr := [
  "t1 = 0.1e1 <= p_a_zeta_threshold";
  "t2 = lax_cond(t1, p_a_zeta_threshold, 1)";
  "t4 = r0 / 0.2e1 <= p_a_dens_threshold";
  "t5 = 3 ** (0.1e1 / 0.3e1)";
  "t6 = math.pi ** (0.1e1 / 0.3e1)";
  "t8 = t5 / t6";
  "t9 = 2 ** (0.1e1 / 0.3e1)";
  "t10 = t9 ** 2";
  "t12 = p_a_zeta_threshold ** (0.1e1 / 0.3e1)";
  "t13 = t12 * p_a_zeta_threshold";
  "t15 = lax_cond(0.2e1 <= p_a_zeta_threshold, t13, 0.2e1 * t9)";
  "t17 = r0 ** (0.1e1 / 0.3e1)";
  "t21 = lax_cond(t4, 0, -0.3e1 / 0.16e2 * t8 * t10 * t15 * t17)";
  "t24 = lax_cond(0.0e0 <= p_a_zeta_threshold, t13, 0)";
  "t29 = lax_cond(0.0e0 <= p_a_dens_threshold, 0, -0.3e1 / 0.16e2 * t8 * t10 * t24 * t17)";
  "t35 = r0 ** 2";
  "t36 = t17 ** 2";
  "t38 = 0.1e1 / t36 / t35";
  "t39 = t10 * t38";
  "t40 = s0 * t10";
  "t41 = t40 * t38";
  "t43 = 0.1e1 + 0.4e-2 * t41";
  "t44 = 0.1e1 / t43";
  "t49 = s0 ** 2";
  "t51 = t35 ** 2";
  "t54 = 0.1e1 / t17 / t51 / r0";
  "t55 = t9 * t54";
  "t56 = t43 ** 2";
  "t62 = 6 ** (0.1e1 / 0.3e1)";
  "t63 = t62 ** 2";
  "t64 = math.pi ** 2";
  "t65 = t64 ** (0.1e1 / 0.3e1)";
  "t66 = t65 ** 2";
  "t67 = t63 * t66";
  "t68 = 0.3e1 / 0.10e2 * t67";
  "t72 = tau0 * t10 / t36 / r0";
  "t73 = t68 - t72";
  "t75 = t68 + t72";
  "t76 = 0.1e1 / t75";
  "t87 = jnp.logical_or(t4, t1)";
  "t89 = (0.1e1 / math.pi) ** (0.1e1 / 0.3e1)";
  "t90 = t5 * t89";
  "t91 = 4 ** (0.1e1 / 0.3e1)";
  "t92 = t91 ** 2";
  "t94 = 0.1e1 / t17";
  "t97 = lax_cond(t1, 0.1e1 / t12, 1)";
  "t99 = t90 * t92 * t94 * t9 * t97";
  "t102 = math.sqrt(t99)";
  "t105 = t99 ** 0.15e1";
  "t107 = t5 ** 2";
  "t108 = t89 ** 2";
  "t109 = t107 * t108";
  "t111 = 0.1e1 / t36";
  "t113 = t97 ** 2";
  "t115 = t109 * t91 * t111 * t10 * t113";
  "t121 = math.log(0.1e1 + 0.16081979498692535067e2 / (0.37978500000000000000e1 * t102 + 0.89690000000000000000e0 * t99 + 0.20477500000000000000e0 * t105 + 0.12323500000000000000e0 * t115))";
  "t123 = 0.621814e-1 * (0.1e1 + 0.53425000000000000000e-1 * t99) * t121";
  "t127 = 0.1e1 / (0.2e1 * t9 - 0.2e1)";
  "t128 = (t15 + t24 - 0.2e1) * t127";
  "t139 = math.log(0.1e1 + 0.32163958997385070134e2 / (0.70594500000000000000e1 * t102 + 0.15494250000000000000e1 * t99 + 0.42077500000000000000e0 * t105 + 0.15629250000000000000e0 * t115))";
  "t152 = math.log(0.1e1 + 0.29608749977793437516e2 / (0.51785000000000000000e1 * t102 + 0.90577500000000000000e0 * t99 + 0.11003250000000000000e0 * t105 + 0.12417750000000000000e0 * t115))";
  "t153 = (0.1e1 + 0.27812500000000000000e-1 * t99) * t152";
  "t162 = lax_cond(t87, 0, t2 * (-t123 + t128 * (-0.3109070e-1 * (0.1e1 + 0.51370000000000000000e-1 * t99) * t139 + t123 - 0.19751673498613801407e-1 * t153) + 0.19751673498613801407e-1 * t128 * t153) / 0.2e1)";
  "t168 = (0.1e1 + 0.2e0 * t41) ** 2";
  "t169 = 0.1e1 / t168";
  "t177 = t73 ** 2";
  "t180 = t75 ** 2";
  "t184 = t49 * t9";
  "t186 = t184 * t54 * t169";
  "t190 = t177 ** 2";
  "t192 = t180 ** 2";
  "t201 = t90 * t92 * t94";
  "t204 = math.sqrt(t201)";
  "t207 = t201 ** 0.15e1";
  "t210 = t109 * t91 * t111";
  "t216 = math.log(0.1e1 + 0.16081979498692535067e2 / (0.37978500000000000000e1 * t204 + 0.89690000000000000000e0 * t201 + 0.20477500000000000000e0 * t207 + 0.12323500000000000000e0 * t210))";
  "t219 = lax_cond(t1, t13, 1)";
  "t233 = math.log(0.1e1 + 0.29608749977793437516e2 / (0.51785000000000000000e1 * t204 + 0.90577500000000000000e0 * t201 + 0.11003250000000000000e0 * t207 + 0.12417750000000000000e0 * t210))";
  "t243 = 0.1e1 + 0.6e-2 * t41";
  "t251 = t51 ** 2";
  "t253 = t243 ** 2";
  "t261 = 0.3e1 / 0.5e1 * t67 * t72";
  "t262 = tau0 ** 2";
  "t268 = 0.4e1 * t262 * t9 / t17 / t35 / r0";
  "t269 = t261 - t268";
  "t271 = t261 + t268";
  "t275 = t269 ** 2";
  "t278 = t271 ** 2";
  "res = t2 * (t21 + t29) * (params_a_c_x[0] + 0.4e-2 * params_a_c_x[1] * s0 * t39 * t44 + 0.32e-4 * params_a_c_x[2] * t49 * t55 / t56 + params_a_c_x[3] * t73 * t76 + 0.4e-2 * params_a_c_x[4] * t73 * t76 * t40 * t38 * t44) + 0.2e1 * t162 * (params_a_c_ss[0] + 0.8e-1 * params_a_c_ss[1] * t49 * t55 * t169 + params_a_c_ss[2] * t73 * t76 + 0.8e-1 * params_a_c_ss[3] * t177 * t73 / t180 / t75 * t186 + 0.8e-1 * params_a_c_ss[4] * t190 / t192 * t186) + (-0.621814e-1 * (0.1e1 + 0.53425000000000000000e-1 * t201) * t216 + 0.19751673498613801407e-1 * (0.2e1 * t219 - 0.2e1) * t127 * (0.1e1 + 0.27812500000000000000e-1 * t201) * t233 - 0.2e1 * t162) * (params_a_c_os[0] + 0.6e-2 * params_a_c_os[1] * s0 * t39 / t243 + 0.864e-6 * params_a_c_os[2] * t49 * s0 / t251 / t253 / t243 + params_a_c_os[3] * t269 / t271 + 0.72e-4 * params_a_c_os[4] * t275 * t269 / t278 / t271 * t184 * t54 / t253)"]%b.

(* gen_repo/impl/prebuilt/pol/mgga_xc_b98.py *)
Definition pol_mgga_xc_b98 : list bstr := [
  "t1 = 3 ** (0.1e1 / 0.3e1)";
  "t2 = math.pi ** (0.1e1 / 0.3e1)";
  "t4 = t1 / t2";
  "t5 = r0 + r1";
  "t6 = 0.1e1 / t5";
  "t7 = r0 * t6";
  "t10 = p_a_zeta_threshold ** (0.1e1 / 0.3e1)";
  "t11 = t10 * p_a_zeta_threshold";
  "t12 = 2 ** (0.1e1 / 0.3e1)";
  "t14 = t7 ** (0.1e1 / 0.3e1)";
  "t18 = lax_cond(0.2e1 * t7 <= p_a_zeta_threshold, t11, 0.2e1 * t12 * r0 * t6 * t14)";
  "t19 = t5 ** (0.1e1 / 0.3e1)";
  "t21 = r0 ** (0.1e1 / 0.3e1)";
  "t22 = t21 ** 2";
  "t24 = 0.1e1 / t22 / r0";
  "t26 = r0 ** 2";
  "t34 = 6 ** (0.1e1 / 0.3e1)";
  "t36 = math.pi ** 2";
  "t37 = t36 ** (0.1e1 / 0.3e1)";
  "t38 = t37 ** 2";
  "t39 = 0.1e1 / t38";
  "t40 = (tau0 * t24 - s0 / t22 / t26 / 0.8e1 - l0 * t24 / 0.4e1) * t34 * t39";
  "t42 = 0.1e1 - 0.5e1 / 0.9e1 * t40";
  "t43 = t42 ** 2";
  "t45 = 0.1e1 + 0.121e-1 * t43";
  "t46 = math.sqrt(t45)";
  "t57 = r1 * t6";
  "t61 = t57 ** (0.1e1 / 0.3e1)";
  "t65 = lax_cond(0.2e1 * t57 <= p_a_zeta_threshold, t11, 0.2e1 * t12 * r1 * t6 * t61)";
  "t67 = r1 ** (0.1e1 / 0.3e1)";
  "t68 = t67 ** 2";
  "t70 = 0.1e1 / t68 / r1";
  "t72 = r1 ** 2";
  "t81 = (tau1 * t70 - s2 / t68 / t72 / 0.8e1 - l1 * t70 / 0.4e1) * t34 * t39";
  "t83 = 0.1e1 - 0.5e1 / 0.9e1 * t81";
  "t84 = t83 ** 2";
  "t86 = 0.1e1 + 0.121e-1 * t84";
  "t87 = math.sqrt(t86)";
  "t99 = r0 - r1";
  "t100 = t99 * t6";
  "t101 = 0.1e1 + t100";
  "t102 = t101 <= p_a_zeta_threshold";
  "t103 = jnp.logical_or(r0 <= p_a_dens_threshold, t102)";
  "t104 = lax_cond(t102, p_a_zeta_threshold, t101)";
  "t106 = (0.1e1 / math.pi) ** (0.1e1 / 0.3e1)";
  "t107 = t1 * t106";
  "t108 = 4 ** (0.1e1 / 0.3e1)";
  "t109 = t108 ** 2";
  "t110 = t107 * t109";
  "t111 = 0.1e1 / t19";
  "t112 = t111 * t12";
  "t113 = 0.1e1 / t10";
  "t114 = t101 ** (0.1e1 / 0.3e1)";
  "t116 = lax_cond(t102, t113, 0.1e1 / t114)";
  "t118 = t110 * t112 * t116";
  "t121 = math.sqrt(t118)";
  "t124 = t118 ** 0.15e1";
  "t126 = t1 ** 2";
  "t127 = t106 ** 2";
  "t128 = t126 * t127";
  "t129 = t128 * t108";
  "t130 = t19 ** 2";
  "t131 = 0.1e1 / t130";
  "t132 = t12 ** 2";
  "t133 = t131 * t132";
  "t134 = t116 ** 2";
  "t136 = t129 * t133 * t134";
  "t142 = math.log(0.1e1 + 0.16081824322151104822e2 / (0.37978500000000000000e1 * t121 + 0.89690000000000000000e0 * t118 + 0.20477500000000000000e0 * t124 + 0.12323500000000000000e0 * t136))";
  "t144 = 0.62182e-1 * (0.1e1 + 0.53425000000000000000e-1 * t118) * t142";
  "t147 = lax_cond(0.2e1 <= p_a_zeta_threshold, t11, 0.2e1 * t12)";
  "t149 = lax_cond(0.0e0 <= p_a_zeta_threshold, t11, 0)";
  "t153 = 0.1e1 / (0.2e1 * t12 - 0.2e1)";
  "t154 = (t147 + t149 - 0.2e1) * t153";
  "t165 = math.log(0.1e1 + 0.32164683177870697974e2 / (0.70594500000000000000e1 * t121 + 0.15494250000000000000e1 * t118 + 0.42077500000000000000e0 * t124 + 0.15629250000000000000e0 * t136))";
  "t178 = math.log(0.1e1 + 0.29608574643216675549e2 / (0.51785000000000000000e1 * t121 + 0.90577500000000000000e0 * t118 + 0.11003250000000000000e0 * t124 + 0.12417750000000000000e0 * t136))";
  "t179 = (0.1e1 + 0.27812500000000000000e-1 * t118) * t178";
  "t188 = lax_cond(t103, 0, t104 * (-t144 + t154 * (-0.31090e-1 * (0.1e1 + 0.51370000000000000000e-1 * t118) * t165 + t144 - 0.19751789702565206229e-1 * t179) + 0.19751789702565206229e-1 * t154 * t179) / 0.2e1)";
  "t190 = 0.1e1 + 0.256e1 * t43";
  "t191 = math.sqrt(t190)";
  "t208 = 0.1e1 - t100";
  "t209 = t208 <= p_a_zeta_threshold";
  "t210 = jnp.logical_or(r1 <= p_a_dens_threshold, t209)";
  "t211 = lax_cond(t209, p_a_zeta_threshold, t208)";
  "t212 = t208 ** (0.1e1 / 0.3e1)";
  "t214 = lax_cond(t209, t113, 0.1e1 / t212)";
  "t216 = t110 * t112 * t214";
  "t219 = math.sqrt(t216)";
  "t222 = t216 ** 0.15e1";
  "t224 = t214 ** 2";
  "t226 = t129 * t133 * t224";
  "t232 = math.log(0.1e1 + 0.16081824322151104822e2 / (0.37978500000000000000e1 * t219 + 0.89690000000000000000e0 * t216 + 0.20477500000000000000e0 * t222 + 0.12323500000000000000e0 * t226))";
  "t234 = 0.62182e-1 * (0.1e1 + 0.53425000000000000000e-1 * t216) * t232";
  "t245 = math.log(0.1e1 + 0.32164683177870697974e2 / (0.70594500000000000000e1 * t219 + 0.15494250000000000000e1 * t216 + 0.42077500000000000000e0 * t222 + 0.15629250000000000000e0 * t226))";
  "t258 = math.log(0.1e1 + 0.29608574643216675549e2 / (0.51785000000000000000e1 * t219 + 0.90577500000000000000e0 * t216 + 0.11003250000000000000e0 * t222 + 0.12417750000000000000e0 * t226))";
  "t259 = (0.1e1 + 0.27812500000000000000e-1 * t216) * t258";
  "t268 = lax_cond(t210, 0, t211 * (-t234 + t154 * (-0.31090e-1 * (0.1e1 + 0.51370000000000000000e-1 * t216) * t245 + t234 - 0.19751789702565206229e-1 * t259) + 0.19751789702565206229e-1 * t154 * t259) / 0.2e1)";
  "t270 = 0.1e1 + 0.256e1 * t84";
  "t271 = math.sqrt(t270)";
  "t288 = t107 * t109 * t111";
  "t291 = math.sqrt(t288)";
  "t294 = t288 ** 0.15e1";
  "t297 = t128 * t108 * t131";
  "t303 = math.log(0.1e1 + 0.16081824322151104822e2 / (0.37978500000000000000e1 * t291 + 0.89690000000000000000e0 * t288 + 0.20477500000000000000e0 * t294 + 0.12323500000000000000e0 * t297))";
  "t305 = 0.62182e-1 * (0.1e1 + 0.53425000000000000000e-1 * t288) * t303";
  "t306 = t99 ** 2";
  "t307 = t306 ** 2";
  "t308 = t5 ** 2";
  "t309 = t308 ** 2";
  "t313 = lax_cond(t102, t11, t114 * t101)";
  "t315 = lax_cond(t209, t11, t212 * t208)";
  "t317 = (t313 + t315 - 0.2e1) * t153";
  "t328 = math.log(0.1e1 + 0.32164683177870697974e2 / (0.70594500000000000000e1 * t291 + 0.15494250000000000000e1 * t288 + 0.42077500000000000000e0 * t294 + 0.15629250000000000000e0 * t297))";
  "t341 = math.log(0.1e1 + 0.29608574643216675549e2 / (0.51785000000000000000e1 * t291 + 0.90577500000000000000e0 * t288 + 0.11003250000000000000e0 * t294 + 0.12417750000000000000e0 * t297))";
  "t342 = (0.1e1 + 0.27812500000000000000e-1 * t288) * t341";
  "t352 = 0.1e1 - 0.5e1 / 0.18e2 * t40 - 0.5e1 / 0.18e2 * t81";
  "t353 = t352 ** 2";
  "t355 = 0.1e1 + 0.196e-1 * t353";
  "t356 = math.sqrt(t355)";
  "res = -0.3e1 / 0.8e1 * t4 * t18 * t19 * (0.8085e0 + 0.73502e-1 * t42 / t46 + 0.171820e-2 * t43 / t45) - 0.3e1 / 0.8e1 * t4 * t65 * t19 * (0.8085e0 + 0.73502e-1 * t83 / t87 + 0.171820e-2 * t84 / t86) + t188 * (0.2606e0 - 0.153728e1 * t42 / t191 + 0.2309888e1 * t43 / t190) * (0.1e1 - s0 / r0 / tau0 / 0.8e1) + t268 * (0.2606e0 - 0.153728e1 * t83 / t271 + 0.2309888e1 * t84 / t270) * (0.1e1 - s2 / r1 / tau1 / 0.8e1) + (-t305 + t307 / t309 * t317 * (-0.31090e-1 * (0.1e1 + 0.51370000000000000000e-1 * t288) * t328 + t305 - 0.19751789702565206229e-1 * t342) + 0.19751789702565206229e-1 * t317 * t342 - t188 - t268) * (0.12033e1 - 0.318038e0 * t352 / t356 + 0.1880816e-1 * t353 / t355)"]%b.

(* gen_repo/impl/prebuilt/unpol/mgga_xc_b98.py *)
Definition unpol_mgga_xc_b98 : list bstr := [
  "t1 = 3 ** (0.1e1 / 0.3e1)";
  "t2 = math.pi ** (0.1e1 / 0.3e1)";
  "t5 = 0.1e1 <= p_a_zeta_threshold";
  "t6 = p_a_zeta_threshold ** (0.1e1 / 0.3e1)";
  "t7 = t6 * p_a_zeta_threshold";
  "t8 = lax_cond(t5, t7, 1)";
  "t9 = r0 ** (0.1e1 / 0.3e1)";
  "t11 = 2 ** (0.1e1 / 0.3e1)";
  "t12 = t11 ** 2";
  "t14 = t9 ** 2";
  "t16 = 0.1e1 / t14 / r0";
  "t19 = r0 ** 2";
  "t28 = 6 ** (0.1e1 / 0.3e1)";
  "t30 = math.pi ** 2";
  "t31 = t30 ** (0.1e1 / 0.3e1)";
  "t32 = t31 ** 2";
  "t36 = 0.1e1 - 0.5e1 / 0.9e1 * (tau0 * t12 * t16 - s0 * t12 / t14 / t19 / 0.8e1 - l0 * t12 * t16 / 0.4e1) * t28 / t32";
  "t37 = t36 ** 2";
  "t39 = 0.1e1 + 0.121e-1 * t37";
  "t40 = math.sqrt(t39)";
  "t53 = jnp.logical_or(r0 / 0.2e1 <= p_a_dens_threshold, t5)";
  "t54 = lax_cond(t5, p_a_zeta_threshold, 1)";
  "t56 = (0.1e1 / math.pi) ** (0.1e1 / 0.3e1)";
  "t57 = t1 * t56";
  "t58 = 4 ** (0.1e1 / 0.3e1)";
  "t59 = t58 ** 2";
  "t61 = 0.1e1 / t9";
  "t64 = lax_cond(t5, 0.1e1 / t6, 1)";
  "t66 = t57 * t59 * t61 * t11 * t64";
  "t69 = math.sqrt(t66)";
  "t72 = t66 ** 0.15e1";
  "t74 = t1 ** 2";
  "t75 = t56 ** 2";
  "t76 = t74 * t75";
  "t78 = 0.1e1 / t14";
  "t80 = t64 ** 2";
  "t82 = t76 * t58 * t78 * t12 * t80";
  "t88 = math.log(0.1e1 + 0.16081824322151104822e2 / (0.37978500000000000000e1 * t69 + 0.89690000000000000000e0 * t66 + 0.20477500000000000000e0 * t72 + 0.12323500000000000000e0 * t82))";
  "t90 = 0.62182e-1 * (0.1e1 + 0.53425000000000000000e-1 * t66) * t88";
  "t93 = lax_cond(0.2e1 <= p_a_zeta_threshold, t7, 0.2e1 * t11)";
  "t95 = lax_cond(0.0e0 <= p_a_zeta_threshold, t7, 0)";
  "t99 = 0.1e1 / (0.2e1 * t11 - 0.2e1)";
  "t100 = (t93 + t95 - 0.2e1) * t99";
  "t111 = math.log(0.1e1 + 0.32164683177870697974e2 / (0.70594500000000000000e1 * t69 + 0.15494250000000000000e1 * t66 + 0.42077500000000000000e0 * t72 + 0.15629250000000000000e0 * t82))";
  "t124 = math.log(0.1e1 + 0.29608574643216675549e2 / (0.51785000000000000000e1 * t69 + 0.90577500000000000000e0 * t66 + 0.11003250000000000000e0 * t72 + 0.12417750000000000000e0 * t82))";
  "t125 = (0.1e1 + 0.27812500000000000000e-1 * t66) * t124";
  "t134 = lax_cond(t53, 0, t54 * (-t90 + t100 * (-0.31090e-1 * (0.1e1 + 0.51370000000000000000e-1 * t66) * t111 + t90 - 0.19751789702565206229e-1 * t125) + 0.19751789702565206229e-1 * t100 * t125) / 0.2e1)";
  "t136 = 0.1e1 + 0.256e1 * t37";
  "t137 = math.sqrt(t136)";
  "t155 = t57 * t59 * t61";
  "t158 = math.sqrt(t155)";
  "t161 = t155 ** 0.15e1";
  "t164 = t76 * t58 * t78";
  "t170 = math.log(0.1e1 + 0.16081824322151104822e2 / (0.37978500000000000000e1 * t158 + 0.89690000000000000000e0 * t155 + 0.20477500000000000000e0 * t161 + 0.12323500000000000000e0 * t164))";
  "t186 = math.log(0.1e1 + 0.29608574643216675549e2 / (0.51785000000000000000e1 * t158 + 0.90577500000000000000e0 * t155 + 0.11003250000000000000e0 * t161 + 0.12417750000000000000e0 * t164))";
  "t193 = 0.1e1 + 0.196e-1 * t37";
  "t194 = math.sqrt(t193)";
  "res = -0.3e1 / 0.4e1 * t1 / t2 * t8 * t9 * (0.8085e0 + 0.73502e-1 * t36 / t40 + 0.171820e-2 * t37 / t39) + 0.2e1 * t134 * (0.2606e0 - 0.153728e1 * t36 / t137 + 0.2309888e1 * t37 / t136) * (0.1e1 - s0 / r0 / tau0 / 0.8e1) + (-0.62182e-1 * (0.1e1 + 0.53425000000000000000e-1 * t155) * t170 + 0.19751789702565206229e-1 * (0.2e1 * t8 - 0.2e1) * t99 * (0.1e1 + 0.27812500000000000000e-1 * t155) * t186 - 0.2e1 * t134) * (0.12033e1 - 0.318038e0 * t36 / t194 + 0.1880816e-1 * t37 / t193)"]%b.

(* gen_repo/impl/prebuilt/pol/mgga_xc_cc06.py *)
Definition pol_mgga_xc_cc06 : list bstr := [
  "t2 = 3 ** (0.1e1 / 0.3e1)";
  "t3 = math.pi ** (0.1e1 / 0.3e1)";
  "t5 = t2 / t3";
  "t6 = r0 + r1";
  "t7 = 0.1e1 / t6";
  "t8 = r0 * t7";
  "t11 = p_a_zeta_threshold ** (0.1e1 / 0.3e1)";
  "t12 = t11 * p_a_zeta_threshold";
  "t13 = 2 ** (0.1e1 / 0.3e1)";
  "t15 = t8 ** (0.1e1 / 0.3e1)";
  "t19 = lax_cond(0.2e1 * t8 <= p_a_zeta_threshold, t12, 0.2e1 * t13 * r0 * t7 * t15)";
  "t20 = t6 ** (0.1e1 / 0.3e1)";
  "t24 = lax_cond(r0 <= p_a_dens_threshold, 0, -0.3e1 / 0.8e1 * t5 * t19 * t20)";
  "t26 = r1 * t7";
  "t30 = t26 ** (0.1e1 / 0.3e1)";
  "t34 = lax_cond(0.2e1 * t26 <= p_a_zeta_threshold, t12, 0.2e1 * t13 * r1 * t7 * t30)";
  "t38 = lax_cond(r1 <= p_a_dens_threshold, 0, -0.3e1 / 0.8e1 * t5 * t34 * t20)";
  "t40 = (0.1e1 / math.pi) ** (0.1e1 / 0.3e1)";
  "t42 = 4 ** (0.1e1 / 0.3e1)";
  "t43 = t42 ** 2";
  "t46 = t2 * t40 * t43 / t20";
  "t49 = math.sqrt(t46)";
  "t52 = t46 ** 0.15e1";
  "t54 = t2 ** 2";
  "t55 = t40 ** 2";
  "t57 = t20 ** 2";
  "t60 = t54 * t55 * t42 / t57";
  "t66 = math.log(0.1e1 + 0.16081824322151104822e2 / (0.37978500000000000000e1 * t49 + 0.89690000000000000000e0 * t46 + 0.20477500000000000000e0 * t52 + 0.12323500000000000000e0 * t60))";
  "t68 = 0.62182e-1 * (0.1e1 + 0.53425000000000000000e-1 * t46) * t66";
  "t69 = r0 - r1";
  "t70 = t69 ** 2";
  "t71 = t70 ** 2";
  "t72 = t6 ** 2";
  "t73 = t72 ** 2";
  "t76 = t69 * t7";
  "t77 = 0.1e1 + t76";
  "t79 = t77 ** (0.1e1 / 0.3e1)";
  "t81 = lax_cond(t77 <= p_a_zeta_threshold, t12, t79 * t77)";
  "t82 = 0.1e1 - t76";
  "t84 = t82 ** (0.1e1 / 0.3e1)";
  "t86 = lax_cond(t82 <= p_a_zeta_threshold, t12, t84 * t82)";
  "t91 = (t81 + t86 - 0.2e1) / (0.2e1 * t13 - 0.2e1)";
  "t102 = math.log(0.1e1 + 0.32164683177870697974e2 / (0.70594500000000000000e1 * t49 + 0.15494250000000000000e1 * t46 + 0.42077500000000000000e0 * t52 + 0.15629250000000000000e0 * t60))";
  "t115 = math.log(0.1e1 + 0.29608574643216675549e2 / (0.51785000000000000000e1 * t49 + 0.90577500000000000000e0 * t46 + 0.11003250000000000000e0 * t52 + 0.12417750000000000000e0 * t60))";
  "t116 = (0.1e1 + 0.27812500000000000000e-1 * t46) * t115";
  "t125 = r0 ** (0.1e1 / 0.3e1)";
  "t126 = t125 ** 2";
  "t130 = t77 / 0.2e1";
  "t131 = t130 ** (0.1e1 / 0.3e1)";
  "t132 = t131 ** 2";
  "t135 = r1 ** (0.1e1 / 0.3e1)";
  "t136 = t135 ** 2";
  "t140 = t82 / 0.2e1";
  "t141 = t140 ** (0.1e1 / 0.3e1)";
  "t142 = t141 ** 2";
  "t147 = t54 * t42 * t55 * (l0 / t126 / r0 * t132 * t130 + l1 / t136 / r1 * t142 * t140)";
  "res = (t24 + t38 - t68 + t71 / t73 * t91 * (-0.31090e-1 * (0.1e1 + 0.51370000000000000000e-1 * t46) * t102 + t68 - 0.19751789702565206229e-1 * t116) + 0.19751789702565206229e-1 * t91 * t116) * (0.1e1 + (-0.7e-3 + 0.20000000000000000000e-2 * t147) / (0.1e1 + 0.65000000000000000000e-2 * t147))"]%b.

(* gen_repo/impl/prebuilt/unpol/mgga_xc_cc06.py *)
Definition unpol_mgga_xc_cc06 : list bstr := [
  "t3 = 3 ** (0.1e1 / 0.3e1)";
  "t4 = math.pi ** (0.1e1 / 0.3e1)";
  "t8 = p_a_zeta_threshold ** (0.1e1 / 0.3e1)";
  "t10 = lax_cond(0.1e1 <= p_a_zeta_threshold, t8 * p_a_zeta_threshold, 1)";
  "t11 = r0 ** (0.1e1 / 0.3e1)";
  "t15 = lax_cond(r0 / 0.2e1 <= p_a_dens_threshold, 0, -0.3e1 / 0.8e1 * t3 / t4 * t10 * t11)";
  "t18 = (0.1e1 / math.pi) ** (0.1e1 / 0.3e1)";
  "t20 = 4 ** (0.1e1 / 0.3e1)";
  "t21 = t20 ** 2";
  "t24 = t3 * t18 * t21 / t11";
  "t27 = math.sqrt(t24)";
  "t30 = t24 ** 0.15e1";
  "t32 = t3 ** 2";
  "t33 = t18 ** 2";
  "t35 = t11 ** 2";
  "t38 = t32 * t33 * t20 / t35";
  "t44 = math.log(0.1e1 + 0.16081824322151104822e2 / (0.37978500000000000000e1 * t27 + 0.89690000000000000000e0 * t24 + 0.20477500000000000000e0 * t30 + 0.12323500000000000000e0 * t38))";
  "t49 = 2 ** (0.1e1 / 0.3e1)";
  "t64 = math.log(0.1e1 + 0.29608574643216675549e2 / (0.51785000000000000000e1 * t27 + 0.90577500000000000000e0 * t24 + 0.11003250000000000000e0 * t30 + 0.12417750000000000000e0 * t38))";
  "t74 = t32 * t20 * t33 * l0 / t35 / r0";
  "res = (0.2e1 * t15 - 0.62182e-1 * (0.1e1 + 0.53425000000000000000e-1 * t24) * t44 + 0.19751789702565206229e-1 * (0.2e1 * t10 - 0.2e1) / (0.2e1 * t49 - 0.2e1) * (0.1e1 + 0.27812500000000000000e-1 * t24) * t64) * (0.1e1 + (-0.7e-3 + 0.20000000000000000000e-2 * t74) / (0.1e1 + 0.65000000000000000000e-2 * t74))"]%b.

(* gen_repo/impl/prebuilt/pol/mgga_xc_lp90.py *)
Definition pol_mgga_xc_lp90 : list bstr := [
  "t3 = r0 + r1";
  "t4 = t3 ** 2";
  "t5 = t3 ** (0.1e1 / 0.3e1)";
  "t6 = t5 ** 2";
  "t11 = r0 ** (0.1e1 / 0.3e1)";
  "t12 = t11 ** 2";
  "t18 = (r0 - r1) / t3";
  "t20 = 0.1e1 / 0.2e1 + t18 / 0.2e1";
  "t21 = t20 ** (0.1e1 / 0.3e1)";
  "t22 = t21 ** 2";
  "t26 = r1 ** (0.1e1 / 0.3e1)";
  "t27 = t26 ** 2";
  "t32 = 0.1e1 / 0.2e1 - t18 / 0.2e1";
  "t33 = t32 ** (0.1e1 / 0.3e1)";
  "t34 = t33 ** 2";
  "res = -(0.80569e0 + 0.37655000000000000000e-3 * (s0 + 0.2e1 * s1 + s2) / t6 / t4 - 0.37655000000000000000e-3 * l0 / t12 / r0 * t22 * t20 - 0.37655000000000000000e-3 * l1 / t27 / r1 * t34 * t32) / (0.1e1 / t5 + 0.40743e-2)"]%b.

(* gen_repo/impl/prebuilt/unpol/mgga_xc_lp90.py *)
Definition unpol_mgga_xc_lp90 : list bstr := [
  "t1 = r0 ** 2";
  "t2 = r0 ** (0.1e1 / 0.3e1)";
  "t3 = t2 ** 2";
  "res = -(0.80569e0 + 0.37655000000000000000e-3 * s0 / t3 / t1 - 0.37655000000000000000e-3 * l0 / t3 / r0) / (0.1e1 / t2 + 0.40743e-2)"]%b.

(* gen_repo/impl/prebuilt/pol/mgga_xc_zlp.py *)
Definition pol_mgga_xc_zlp : list bstr := [
  "t1 = 3 ** (0.1e1 / 0.3e1)";
  "t3 = (0.1e1 / math.pi) ** (0.1e1 / 0.3e1)";
  "t4 = t1 * t3";
  "t5 = 4 ** (0.1e1 / 0.3e1)";
  "t6 = t5 ** 2";
  "t11 = r0 + r1";
  "t12 = t11 ** 2";
  "t13 = t11 ** (0.1e1 / 0.3e1)";
  "t14 = t13 ** 2";
  "t18 = r0 ** (0.1e1 / 0.3e1)";
  "t19 = t18 ** 2";
  "t25 = (r0 - r1) / t11";
  "t27 = 0.1e1 / 0.2e1 + t25 / 0.2e1";
  "t28 = t27 ** (0.1e1 / 0.3e1)";
  "t29 = t28 ** 2";
  "t32 = r1 ** (0.1e1 / 0.3e1)";
  "t33 = t32 ** 2";
  "t38 = 0.1e1 / 0.2e1 - t25 / 0.2e1";
  "t39 = t38 ** (0.1e1 / 0.3e1)";
  "t40 = t39 ** 2";
  "t52 = math.log(0.1e1 + 0.48849425066691677572e3 / t13)";
  "t57 = t1 ** 2";
  "res = -(0.20710800000000000000e0 * t4 * t6 + 0.53877250000000000000e-2 * t4 * t6 * ((s0 + 0.2e1 * s1 + s2) / t14 / t12 / 0.8e1 - l0 / t19 / r0 * t29 * t27 / 0.8e1 - l1 / t33 / r1 * t40 * t38 / 0.8e1)) * (0.1e1 - 0.20471070000000000000e-2 * t52 * t13) * t57 / t3 * t5 * t13 / 0.3e1"]%b.

(* gen_repo/impl/prebuilt/unpol/mgga_xc_zlp.py *)
Definition unpol_mgga_xc_zlp : list bstr := [
  "t1 = 3 ** (0.1e1 / 0.3e1)";
  "t3 = (0.1e1 / math.pi) ** (0.1e1 / 0.3e1)";
  "t4 = t1 * t3";
  "t5 = 4 ** (0.1e1 / 0.3e1)";
  "t6 = t5 ** 2";
  "t9 = r0 ** 2";
  "t10 = r0 ** (0.1e1 / 0.3e1)";
  "t11 = t10 ** 2";
  "t27 = math.log(0.1e1 + 0.48849425066691677572e3 / t10)";
  "t32 = t1 ** 2";
  "res = -(0.20710800000000000000e0 * t4 * t6 + 0.53877250000000000000e-2 * t4 * t6 * (s0 / t11 / t9 / 0.8e1 - l0 / t11 / r0 / 0.8e1)) * (0.1e1 - 0.20471070000000000000e-2 * t27 * t10) * t32 / t3 * t5 * t10 / 0.3e1"]%b.

(* Generated by tools/gen_src.py: verbatim text of the prebuilt programs. *)
From Coq Require Import List.
From Verif Require Import Bytes.
Import ListNotations.

(* gen_repo/impl/prebuilt/pol/gga_k_apbeint.py *)
Definition pol_gga_k_apbeint : list bstr := [
  "t2 = 3 ** (0.1e1 / 0.3e1)";
  "t3 = t2 ** 2";
  "t4 = math.pi ** (0.1e1 / 0.3e1)";
  "t6 = t3 * t4 * math.pi";
  "t7 = r0 + r1";
  "t8 = 0.1e1 / t7";
  "t11 = 0.2e1 * r0 * t8 <= p_a_zeta_threshold";
  "t12 = p_a_zeta_threshold - 0.1e1";
  "t15 = 0.2e1 * r1 * t8 <= p_a_zeta_threshold";
  "t16 = -t12";
  "t18 = (r0 - r1) * t8";
  "t19 = lax_cond(t15, t16, t18)";
  "t20 = lax_cond(t11, t12, t19)";
  "t21 = 0.1e1 + t20";
  "t23 = p_a_zeta_threshold ** (0.1e1 / 0.3e1)";
  "t24 = t23 ** 2";
  "t25 = t24 * p_a_zeta_threshold";
  "t26 = t21 ** (0.1e1 / 0.3e1)";
  "t27 = t26 ** 2";
  "t29 = lax_cond(t21 <= p_a_zeta_threshold, t25, t27 * t21)";
  "t30 = t7 ** (0.1e1 / 0.3e1)";
  "t31 = t30 ** 2";
  "t35 = 6 ** (0.1e1 / 0.3e1)";
  "t36 = (params_a_muPBE - params_a_muGE) * params_a_alpha * t35";
  "t37 = math.pi ** 2";
  "t38 = t37 ** (0.1e1 / 0.3e1)";
  "t39 = t38 ** 2";
  "t40 = 0.1e1 / t39";
  "t41 = t40 * s0";
  "t42 = r0 ** 2";
  "t43 = r0 ** (0.1e1 / 0.3e1)";
  "t44 = t43 ** 2";
  "t46 = 0.1e1 / t44 / t42";
  "t47 = params_a_alpha * t35";
  "t48 = t41 * t46";
  "t70 = lax_cond(r0 <= p_a_dens_threshold, 0, 0.3e1 / 0.20e2 * t6 * t29 * t31 * (0.1e1 + params_a_kappa * (0.1e1 - params_a_kappa / (params_a_kappa + (params_a_muGE + t36 * t41 * t46 / (0.1e1 + t47 * t48 / 0.24e2) / 0.24e2) * t35 * t48 / 0.24e2))))";
  "t72 = lax_cond(t11, t16, -t18)";
  "t73 = lax_cond(t15, t12, t72)";
  "t74 = 0.1e1 + t73";
  "t76 = t74 ** (0.1e1 / 0.3e1)";
  "t77 = t76 ** 2";
  "t79 = lax_cond(t74 <= p_a_zeta_threshold, t25, t77 * t74)";
  "t81 = t40 * s2";
  "t82 = r1 ** 2";
  "t83 = r1 ** (0.1e1 / 0.3e1)";
  "t84 = t83 ** 2";
  "t86 = 0.1e1 / t84 / t82";
  "t87 = t81 * t86";
  "t109 = lax_cond(r1 <= p_a_dens_threshold, 0, 0.3e1 / 0.20e2 * t6 * t79 * t31 * (0.1e1 + params_a_kappa * (0.1e1 - params_a_kappa / (params_a_kappa + (params_a_muGE + t36 * t81 * t86 / (0.1e1 + t47 * t87 / 0.24e2) / 0.24e2) * t35 * t87 / 0.24e2))))";
  "res = t70 + t109"]%b.

(* gen_repo/impl/prebuilt/unpol/gga_k_apbeint.py *)
Definition unpol_gga_k_apbeint : list bstr := [
  "t3 = 3 ** (0.1e1 / 0.3e1)";
  "t4 = t3 ** 2";
  "t5 = math.pi ** (0.1e1 / 0.3e1)";
  "t8 = 0.1e1 <= p_a_zeta_threshold";
  "t9 = p_a_zeta_threshold - 0.1e1";
  "t11 = lax_cond(t8, -t9, 0)";
  "t12 = lax_cond(t8, t9, t11)";
  "t13 = 0.1e1 + t12";
  "t15 = p_a_zeta_threshold ** (0.1e1 / 0.3e1)";
  "t16 = t15 ** 2";
  "t18 = t13 ** (0.1e1 / 0.3e1)";
  "t19 = t18 ** 2";
  "t21 = lax_cond(t13 <= p_a_zeta_threshold, t16 * p_a_zeta_threshold, t19 * t13)";
  "t22 = r0 ** (0.1e1 / 0.3e1)";
  "t23 = t22 ** 2";
  "t27 = 6 ** (0.1e1 / 0.3e1)";
  "t28 = math.pi ** 2";
  "t29 = t28 ** (0.1e1 / 0.3e1)";
  "t30 = t29 ** 2";
  "t31 = 0.1e1 / t30";
  "t34 = 2 ** (0.1e1 / 0.3e1)";
  "t35 = t34 ** 2";
  "t36 = s0 * t35";
  "t37 = r0 ** 2";
  "t39 = 0.1e1 / t23 / t37";
  "t42 = t36 * t39";
  "t65 = lax_cond(r0 / 0.2e1 <= p_a_dens_threshold, 0, 0.3e1 / 0.20e2 * t4 * t5 * math.pi * t21 * t23 * (0.1e1 + params_a_kappa * (0.1e1 - params_a_kappa / (params_a_kappa + (params_a_muGE + (params_a_muPBE - params_a_muGE) * params_a_alpha * t27 * t31 * t36 * t39 / (0.1e1 + params_a_alpha * t27 * t31 * t42 / 0.24e2) / 0.24e2) * t27 * t31 * t42 / 0.24e2))))";
  "res = 0.2e1 * t65"]%b.

(* gen_repo/impl/prebuilt/pol/gga_k_dk.py *)
Definition pol_gga_k_dk : list bstr := [
  "t2 = 3 ** (0.1e1 / 0.3e1)";
  "t3 = t2 ** 2";
  "t4 = math.pi ** (0.1e1 / 0.3e1)";
  "t6 = t3 * t4 * math.pi";
  "t7 = r0 + r1";
  "t8 = 0.1e1 / t7";
  "t11 = 0.2e1 * r0 * t8 <= p_a_zeta_threshold";
  "t12 = p_a_zeta_threshold - 0.1e1";
  "t15 = 0.2e1 * r1 * t8 <= p_a_zeta_threshold";
  "t16 = -t12";
  "t18 = (r0 - r1) * t8";
  "t19 = lax_cond(t15, t16, t18)";
  "t20 = lax_cond(t11, t12, t19)";
  "t21 = 0.1e1 + t20";
  "t23 = p_a_zeta_threshold ** (0.1e1 / 0.3e1)";
  "t24 = t23 ** 2";
  "t25 = t24 * p_a_zeta_threshold";
  "t26 = t21 ** (0.1e1 / 0.3e1)";
  "t27 = t26 ** 2";
  "t29 = lax_cond(t21 <= p_a_zeta_threshold, t25, t27 * t21)";
  "t31 = t7 ** (0.1e1 / 0.3e1)";
  "t32 = t31 ** 2";
  "t33 = params_a_aa[0]";
  "t34 = params_a_aa[1]";
  "t36 = r0 ** 2";
  "t37 = r0 ** (0.1e1 / 0.3e1)";
  "t38 = t37 ** 2";
  "t40 = 0.1e1 / t38 / t36";
  "t42 = params_a_aa[2]";
  "t43 = s0 ** 2";
  "t45 = t36 ** 2";
  "t48 = 0.1e1 / t37 / t45 / r0";
  "t50 = params_a_aa[3]";
  "t51 = t43 * s0";
  "t53 = t45 ** 2";
  "t54 = 0.1e1 / t53";
  "t56 = params_a_aa[4]";
  "t57 = t43 ** 2";
  "t61 = 0.1e1 / t38 / t53 / t36";
  "t65 = params_a_bb[0]";
  "t66 = params_a_bb[1]";
  "t69 = params_a_bb[2]";
  "t72 = params_a_bb[3]";
  "t75 = params_a_bb[4]";
  "t83 = lax_cond(r0 <= p_a_dens_threshold, 0, 0.3e1 / 0.20e2 * t6 * t29 * t32 * (t34 * s0 * t40 + t42 * t43 * t48 + t50 * t51 * t54 + t56 * t57 * t61 + t33) / (t66 * s0 * t40 + t69 * t43 * t48 + t72 * t51 * t54 + t75 * t57 * t61 + t65))";
  "t85 = lax_cond(t11, t16, -t18)";
  "t86 = lax_cond(t15, t12, t85)";
  "t87 = 0.1e1 + t86";
  "t89 = t87 ** (0.1e1 / 0.3e1)";
  "t90 = t89 ** 2";
  "t92 = lax_cond(t87 <= p_a_zeta_threshold, t25, t90 * t87)";
  "t95 = r1 ** 2";
  "t96 = r1 ** (0.1e1 / 0.3e1)";
  "t97 = t96 ** 2";
  "t99 = 0.1e1 / t97 / t95";
  "t101 = s2 ** 2";
  "t103 = t95 ** 2";
  "t106 = 0.1e1 / t96 / t103 / r1";
  "t108 = t101 * s2";
  "t110 = t103 ** 2";
  "t111 = 0.1e1 / t110";
  "t113 = t101 ** 2";
  "t117 = 0.1e1 / t97 / t110 / t95";
  "t134 = lax_cond(r1 <= p_a_dens_threshold, 0, 0.3e1 / 0.20e2 * t6 * t92 * t32 * (t34 * s2 * t99 + t42 * t101 * t106 + t50 * t108 * t111 + t56 * t113 * t117 + t33) / (t66 * s2 * t99 + t69 * t101 * t106 + t72 * t108 * t111 + t75 * t113 * t117 + t65))";
  "res = t83 + t134"]%b.

(* gen_repo/impl/prebuilt/unpol/gga_k_dk.py *)
Definition unpol_gga_k_dk : list bstr := [
  "t3 = 3 ** (0.1e1 / 0.3e1)";
  "t4 = t3 ** 2";
  "t5 = math.pi ** (0.1e1 / 0.3e1)";
  "t8 = 0.1e1 <= p_a_zeta_threshold";
  "t9 = p_a_zeta_threshold - 0.1e1";
  "t11 = lax_cond(t8, -t9, 0)";
  "t12 = lax_cond(t8, t9, t11)";
  "t13 = 0.1e1 + t12";
  "t15 = p_a_zeta_threshold ** (0.1e1 / 0.3e1)";
  "t16 = t15 ** 2";
  "t18 = t13 ** (0.1e1 / 0.3e1)";
  "t19 = t18 ** 2";
  "t21 = lax_cond(t13 <= p_a_zeta_threshold, t16 * p_a_zeta_threshold, t19 * t13)";
  "t23 = r0 ** (0.1e1 / 0.3e1)";
  "t24 = t23 ** 2";
  "t28 = 2 ** (0.1e1 / 0.3e1)";
  "t29 = t28 ** 2";
  "t30 = r0 ** 2";
  "t33 = t29 / t24 / t30";
  "t36 = s0 ** 2";
  "t38 = t30 ** 2";
  "t42 = t28 / t23 / t38 / r0";
  "t46 = t36 * s0";
  "t48 = t38 ** 2";
  "t49 = 0.1e1 / t48";
  "t53 = t36 ** 2";
  "t58 = t29 / t24 / t48 / t30";
  "t84 = lax_cond(r0 / 0.2e1 <= p_a_dens_threshold, 0, 0.3e1 / 0.20e2 * t4 * t5 * math.pi * t21 * t24 * (params_a_aa[1] * s0 * t33 + 0.2e1 * params_a_aa[2] * t36 * t42 + 0.4e1 * params_a_aa[3] * t46 * t49 + 0.4e1 * params_a_aa[4] * t53 * t58 + params_a_aa[0]) / (params_a_bb[1] * s0 * t33 + 0.2e1 * params_a_bb[2] * t36 * t42 + 0.4e1 * params_a_bb[3] * t46 * t49 + 0.4e1 * params_a_bb[4] * t53 * t58 + params_a_bb[0]))";
  "res = 0.2e1 * t84"]%b.

(* gen_repo/impl/prebuilt/pol/gga_k_exp4.py *)
Definition pol_gga_k_exp4 : list bstr := [
  "t2 = 3 ** (0.1e1 / 0.3e1)";
  "t3 = t2 ** 2";
  "t4 = math.pi ** (0.1e1 / 0.3e1)";
  "t6 = t3 * t4 * math.pi";
  "t7 = r0 + r1";
  "t8 = 0.1e1 / t7";
  "t11 = 0.2e1 * r0 * t8 <= p_a_zeta_threshold";
  "t12 = p_a_zeta_threshold - 0.1e1";
  "t15 = 0.2e1 * r1 * t8 <= p_a_zeta_threshold";
  "t16 = -t12";
  "t18 = (r0 - r1) * t8";
  "t19 = lax_cond(t15, t16, t18)";
  "t20 = lax_cond(t11, t12, t19)";
  "t21 = 0.1e1 + t20";
  "t23 = p_a_zeta_threshold ** (0.1e1 / 0.3e1)";
  "t24 = t23 ** 2";
  "t25 = t24 * p_a_zeta_threshold";
  "t26 = t21 ** (0.1e1 / 0.3e1)";
  "t27 = t26 ** 2";
  "t29 = lax_cond(t21 <= p_a_zeta_threshold, t25, t27 * t21)";
  "t30 = t7 ** (0.1e1 / 0.3e1)";
  "t31 = t30 ** 2";
  "t33 = 6 ** (0.1e1 / 0.3e1)";
  "t34 = math.pi ** 2";
  "t35 = t34 ** (0.1e1 / 0.3e1)";
  "t36 = t35 ** 2";
  "t38 = t33 / t36";
  "t39 = r0 ** 2";
  "t40 = r0 ** (0.1e1 / 0.3e1)";
  "t41 = t40 ** 2";
  "t47 = math.exp(-0.83254166666666666664e1 * t38 * s0 / t41 / t39)";
  "t49 = t33 ** 2";
  "t52 = t49 / t35 / t34";
  "t53 = s0 ** 2";
  "t54 = t39 ** 2";
  "t61 = math.exp(-0.75479166666666666666e-2 * t52 * t53 / t40 / t54 / r0)";
  "t67 = lax_cond(r0 <= p_a_dens_threshold, 0, 0.3e1 / 0.20e2 * t6 * t29 * t31 * (0.20788e1 - 0.8524e0 * t47 - 0.12264e1 * t61))";
  "t69 = lax_cond(t11, t16, -t18)";
  "t70 = lax_cond(t15, t12, t69)";
  "t71 = 0.1e1 + t70";
  "t73 = t71 ** (0.1e1 / 0.3e1)";
  "t74 = t73 ** 2";
  "t76 = lax_cond(t71 <= p_a_zeta_threshold, t25, t74 * t71)";
  "t78 = r1 ** 2";
  "t79 = r1 ** (0.1e1 / 0.3e1)";
  "t80 = t79 ** 2";
  "t86 = math.exp(-0.83254166666666666664e1 * t38 * s2 / t80 / t78)";
  "t88 = s2 ** 2";
  "t89 = t78 ** 2";
  "t96 = math.exp(-0.75479166666666666666e-2 * t52 * t88 / t79 / t89 / r1)";
  "t102 = lax_cond(r1 <= p_a_dens_threshold, 0, 0.3e1 / 0.20e2 * t6 * t76 * t31 * (0.20788e1 - 0.8524e0 * t86 - 0.12264e1 * t96))";
  "res = t67 + t102"]%b.

(* gen_repo/impl/prebuilt/unpol/gga_k_exp4.py *)
Definition unpol_gga_k_exp4 : list bstr := [
  "t3 = 3 ** (0.1e1 / 0.3e1)";
  "t4 = t3 ** 2";
  "t5 = math.pi ** (0.1e1 / 0.3e1)";
  "t8 = 0.1e1 <= p_a_zeta_threshold";
  "t9 = p_a_zeta_threshold - 0.1e1";
  "t11 = lax_cond(t8, -t9, 0)";
  "t12 = lax_cond(t8, t9, t11)";
  "t13 = 0.1e1 + t12";
  "t15 = p_a_zeta_threshold ** (0.1e1 / 0.3e1)";
  "t16 = t15 ** 2";
  "t18 = t13 ** (0.1e1 / 0.3e1)";
  "t19 = t18 ** 2";
  "t21 = lax_cond(t13 <= p_a_zeta_threshold, t16 * p_a_zeta_threshold, t19 * t13)";
  "t22 = r0 ** (0.1e1 / 0.3e1)";
  "t23 = t22 ** 2";
  "t25 = 6 ** (0.1e1 / 0.3e1)";
  "t26 = math.pi ** 2";
  "t27 = t26 ** (0.1e1 / 0.3e1)";
  "t28 = t27 ** 2";
  "t31 = 2 ** (0.1e1 / 0.3e1)";
  "t32 = t31 ** 2";
  "t34 = r0 ** 2";
  "t40 = math.exp(-0.83254166666666666664e1 * t25 / t28 * s0 * t32 / t23 / t34)";
  "t42 = t25 ** 2";
  "t46 = s0 ** 2";
  "t48 = t34 ** 2";
  "t55 = math.exp(-0.15095833333333333333e-1 * t42 / t27 / t26 * t46 * t31 / t22 / t48 / r0)";
  "t61 = lax_cond(r0 / 0.2e1 <= p_a_dens_threshold, 0, 0.3e1 / 0.20e2 * t4 * t5 * math.pi * t21 * t23 * (0.20788e1 - 0.8524e0 * t40 - 0.12264e1 * t55))";
  "res = 0.2e1 * t61"]%b.

(* gen_repo/impl/prebuilt/pol/gga_k_lc94.py *)
Definition pol_gga_k_lc94 : list bstr := [
  "t2 = 3 ** (0.1e1 / 0.3e1)";
  "t3 = t2 ** 2";
  "t4 = math.pi ** (0.1e1 / 0.3e1)";
  "t6 = t3 * t4 * math.pi";
  "t7 = r0 + r1";
  "t8 = 0.1e1 / t7";
  "t11 = 0.2e1 * r0 * t8 <= p_a_zeta_threshold";
  "t12 = p_a_zeta_threshold - 0.1e1";
  "t15 = 0.2e1 * r1 * t8 <= p_a_zeta_threshold";
  "t16 = -t12";
  "t18 = (r0 - r1) * t8";
  "t19 = lax_cond(t15, t16, t18)";
  "t20 = lax_cond(t11, t12, t19)";
  "t21 = 0.1e1 + t20";
  "t23 = p_a_zeta_threshold ** (0.1e1 / 0.3e1)";
  "t24 = t23 ** 2";
  "t25 = t24 * p_a_zeta_threshold";
  "t26 = t21 ** (0.1e1 / 0.3e1)";
  "t27 = t26 ** 2";
  "t29 = lax_cond(t21 <= p_a_zeta_threshold, t25, t27 * t21)";
  "t30 = t7 ** (0.1e1 / 0.3e1)";
  "t31 = t30 ** 2";
  "t33 = 6 ** (0.1e1 / 0.3e1)";
  "t34 = params_a_alpha * t33";
  "t35 = math.pi ** 2";
  "t36 = t35 ** (0.1e1 / 0.3e1)";
  "t37 = t36 ** 2";
  "t38 = 0.1e1 / t37";
  "t40 = r0 ** 2";
  "t41 = r0 ** (0.1e1 / 0.3e1)";
  "t42 = t41 ** 2";
  "t45 = t38 * s0 / t42 / t40";
  "t48 = math.exp(-t34 * t45 / 0.24e2)";
  "t54 = t33 ** 2";
  "t55 = 0.1e1 / t36";
  "t56 = t54 * t55";
  "t57 = math.sqrt(s0)";
  "t59 = 0.1e1 / t41 / r0";
  "t63 = (t56 * t57 * t59 / 0.12e2) ** params_a_expo";
  "t64 = params_a_f * t63";
  "t68 = params_a_b * t54";
  "t73 = math.asinh(t68 * t55 * t57 * t59 / 0.12e2)";
  "t84 = lax_cond(r0 <= p_a_dens_threshold, 0, 0.3e1 / 0.20e2 * t6 * t29 * t31 * (0.1e1 + ((params_a_d * t48 + params_a_c) * t33 * t45 / 0.24e2 - t64) / (0.1e1 + t56 * t57 * t59 * params_a_a * t73 / 0.12e2 + t64)))";
  "t86 = lax_cond(t11, t16, -t18)";
  "t87 = lax_cond(t15, t12, t86)";
  "t88 = 0.1e1 + t87";
  "t90 = t88 ** (0.1e1 / 0.3e1)";
  "t91 = t90 ** 2";
  "t93 = lax_cond(t88 <= p_a_zeta_threshold, t25, t91 * t88)";
  "t96 = r1 ** 2";
  "t97 = r1 ** (0.1e1 / 0.3e1)";
  "t98 = t97 ** 2";
  "t101 = t38 * s2 / t98 / t96";
  "t104 = math.exp(-t34 * t101 / 0.24e2)";
  "t110 = math.sqrt(s2)";
  "t112 = 0.1e1 / t97 / r1";
  "t116 = (t56 * t110 * t112 / 0.12e2) ** params_a_expo";
  "t117 = params_a_f * t116";
  "t125 = math.asinh(t68 * t55 * t110 * t112 / 0.12e2)";
  "t136 = lax_cond(r1 <= p_a_dens_threshold, 0, 0.3e1 / 0.20e2 * t6 * t93 * t31 * (0.1e1 + ((params_a_d * t104 + params_a_c) * t33 * t101 / 0.24e2 - t117) / (0.1e1 + t56 * t110 * t112 * params_a_a * t125 / 0.12e2 + t117)))";
  "res = t84 + t136"]%b.

(* gen_repo/impl/prebuilt/unpol/gga_k_lc94.py *)
Definition unpol_gga_k_lc94 : list bstr := [
  "t3 = 3 ** (0.1e1 / 0.3e1)";
  "t4 = t3 ** 2";
  "t5 = math.pi ** (0.1e1 / 0.3e1)";
  "t8 = 0.1e1 <= p_a_zeta_threshold";
  "t9 = p_a_zeta_threshold - 0.1e1";
  "t11 = lax_cond(t8, -t9, 0)";
  "t12 = lax_cond(t8, t9, t11)";
  "t13 = 0.1e1 + t12";
  "t15 = p_a_zeta_threshold ** (0.1e1 / 0.3e1)";
  "t16 = t15 ** 2";
  "t18 = t13 ** (0.1e1 / 0.3e1)";
  "t19 = t18 ** 2";
  "t21 = lax_cond(t13 <= p_a_zeta_threshold, t16 * p_a_zeta_threshold, t19 * t13)";
  "t22 = r0 ** (0.1e1 / 0.3e1)";
  "t23 = t22 ** 2";
  "t25 = 6 ** (0.1e1 / 0.3e1)";
  "t27 = math.pi ** 2";
  "t28 = t27 ** (0.1e1 / 0.3e1)";
  "t29 = t28 ** 2";
  "t30 = 0.1e1 / t29";
  "t32 = 2 ** (0.1e1 / 0.3e1)";
  "t33 = t32 ** 2";
  "t35 = r0 ** 2";
  "t38 = s0 * t33 / t23 / t35";
  "t41 = math.exp(-params_a_alpha * t25 * t30 * t38 / 0.24e2)";
  "t48 = t25 ** 2";
  "t49 = 0.1e1 / t28";
  "t50 = t48 * t49";
  "t51 = math.sqrt(s0)";
  "t54 = 0.1e1 / t22 / r0";
  "t55 = t51 * t32 * t54";
  "t58 = (t50 * t55 / 0.12e2) ** params_a_expo";
  "t59 = params_a_f * t58";
  "t67 = math.asinh(params_a_b * t48 * t49 * t55 / 0.12e2)";
  "t79 = lax_cond(r0 / 0.2e1 <= p_a_dens_threshold, 0, 0.3e1 / 0.20e2 * t4 * t5 * math.pi * t21 * t23 * (0.1e1 + ((params_a_d * t41 + params_a_c) * t25 * t30 * t38 / 0.24e2 - t59) / (0.1e1 + t50 * t51 * t32 * t54 * params_a_a * t67 / 0.12e2 + t59)))";
  "res = 0.2e1 * t79"]%b.

(* gen_repo/impl/prebuilt/pol/gga_k_lgap.py *)
Definition pol_gga_k_lgap : list bstr := [
  "t2 = 3 ** (0.1e1 / 0.3e1)";
  "t3 = t2 ** 2";
  "t4 = math.pi ** (0.1e1 / 0.3e1)";
  "t6 = t3 * t4 * math.pi";
  "t7 = r0 + r1";
  "t8 = 0.1e1 / t7";
  "t11 = 0.2e1 * r0 * t8 <= p_a_zeta_threshold";
  "t12 = p_a_zeta_threshold - 0.1e1";
  "t15 = 0.2e1 * r1 * t8 <= p_a_zeta_threshold";
  "t16 = -t12";
  "t18 = (r0 - r1) * t8";
  "t19 = lax_cond(t15, t16, t18)";
  "t20 = lax_cond(t11, t12, t19)";
  "t21 = 0.1e1 + t20";
  "t23 = p_a_zeta_threshold ** (0.1e1 / 0.3e1)";
  "t24 = t23 ** 2";
  "t25 = t24 * p_a_zeta_threshold";
  "t26 = t21 ** (0.1e1 / 0.3e1)";
  "t27 = t26 ** 2";
  "t29 = lax_cond(t21 <= p_a_zeta_threshold, t25, t27 * t21)";
  "t30 = t7 ** (0.1e1 / 0.3e1)";
  "t31 = t30 ** 2";
  "t34 = 6 ** (0.1e1 / 0.3e1)";
  "t35 = t34 ** 2";
  "t36 = params_a_mu[0] * t35";
  "t37 = math.pi ** 2";
  "t38 = t37 ** (0.1e1 / 0.3e1)";
  "t39 = 0.1e1 / t38";
  "t40 = math.sqrt(s0)";
  "t42 = r0 ** (0.1e1 / 0.3e1)";
  "t49 = params_a_mu[1] * t34";
  "t50 = t38 ** 2";
  "t51 = 0.1e1 / t50";
  "t53 = r0 ** 2";
  "t54 = t42 ** 2";
  "t62 = params_a_mu[2] / t37";
  "t64 = t53 ** 2";
  "t70 = math.exp(-t36 * t39 * t40 / t42 / r0 / 0.12e2 - t49 * t51 * s0 / t54 / t53 / 0.24e2 - t62 * t40 * s0 / t64 / 0.48e2)";
  "t77 = lax_cond(r0 <= p_a_dens_threshold, 0, 0.3e1 / 0.20e2 * t6 * t29 * t31 * (0.1e1 + params_a_kappa * (0.1e1 - t70)))";
  "t79 = lax_cond(t11, t16, -t18)";
  "t80 = lax_cond(t15, t12, t79)";
  "t81 = 0.1e1 + t80";
  "t83 = t81 ** (0.1e1 / 0.3e1)";
  "t84 = t83 ** 2";
  "t86 = lax_cond(t81 <= p_a_zeta_threshold, t25, t84 * t81)";
  "t88 = math.sqrt(s2)";
  "t90 = r1 ** (0.1e1 / 0.3e1)";
  "t97 = r1 ** 2";
  "t98 = t90 ** 2";
  "t105 = t97 ** 2";
  "t111 = math.exp(-t36 * t39 * t88 / t90 / r1 / 0.12e2 - t49 * t51 * s2 / t98 / t97 / 0.24e2 - t62 * t88 * s2 / t105 / 0.48e2)";
  "t118 = lax_cond(r1 <= p_a_dens_threshold, 0, 0.3e1 / 0.20e2 * t6 * t86 * t31 * (0.1e1 + params_a_kappa * (0.1e1 - t111)))";
  "res = t77 + t118"]%b.

(* gen_repo/impl/prebuilt/unpol/gga_k_lgap.py *)
Definition unpol_gga_k_lgap : list bstr := [
  "t3 = 3 ** (0.1e1 / 0.3e1)";
  "t4 = t3 ** 2";
  "t5 = math.pi ** (0.1e1 / 0.3e1)";
  "t8 = 0.1e1 <= p_a_zeta_threshold";
  "t9 = p_a_zeta_threshold - 0.1e1";
  "t11 = lax_cond(t8, -t9, 0)";
  "t12 = lax_cond(t8, t9, t11)";
  "t13 = 0.1e1 + t12";
  "t15 = p_a_zeta_threshold ** (0.1e1 / 0.3e1)";
  "t16 = t15 ** 2";
  "t18 = t13 ** (0.1e1 / 0.3e1)";
  "t19 = t18 ** 2";
  "t21 = lax_cond(t13 <= p_a_zeta_threshold, t16 * p_a_zeta_threshold, t19 * t13)";
  "t22 = r0 ** (0.1e1 / 0.3e1)";
  "t23 = t22 ** 2";
  "t26 = 6 ** (0.1e1 / 0.3e1)";
  "t27 = t26 ** 2";
  "t29 = math.pi ** 2";
  "t30 = t29 ** (0.1e1 / 0.3e1)";
  "t33 = math.sqrt(s0)";
  "t34 = 2 ** (0.1e1 / 0.3e1)";
  "t43 = t30 ** 2";
  "t46 = t34 ** 2";
  "t48 = r0 ** 2";
  "t58 = t48 ** 2";
  "t64 = math.exp(-params_a_mu[0] * t27 / t30 * t33 * t34 / t22 / r0 / 0.12e2 - params_a_mu[1] * t26 / t43 * s0 * t46 / t23 / t48 / 0.24e2 - params_a_mu[2] / t29 * t33 * s0 / t58 / 0.24e2)";
  "t71 = lax_cond(r0 / 0.2e1 <= p_a_dens_threshold, 0, 0.3e1 / 0.20e2 * t4 * t5 * math.pi * t21 * t23 * (0.1e1 + params_a_kappa * (0.1e1 - t64)))";
  "res = 0.2e1 * t71"]%b.

(* gen_repo/impl/prebuilt/pol/gga_k_lgap_ge.py *)
Definition pol_gga_k_lgap_ge : list bstr := [
  "t2 = 3 ** (0.1e1 / 0.3e1)";
  "t3 = t2 ** 2";
  "t4 = math.pi ** (0.1e1 / 0.3e1)";
  "t6 = t3 * t4 * math.pi";
  "t7 = r0 + r1";
  "t8 = 0.1e1 / t7";
  "t11 = 0.2e1 * r0 * t8 <= p_a_zeta_threshold";
  "t12 = p_a_zeta_threshold - 0.1e1";
  "t15 = 0.2e1 * r1 * t8 <= p_a_zeta_threshold";
  "t16 = -t12";
  "t18 = (r0 - r1) * t8";
  "t19 = lax_cond(t15, t16, t18)";
  "t20 = lax_cond(t11, t12, t19)";
  "t21 = 0.1e1 + t20";
  "t23 = p_a_zeta_threshold ** (0.1e1 / 0.3e1)";
  "t24 = t23 ** 2";
  "t25 = t24 * p_a_zeta_threshold";
  "t26 = t21 ** (0.1e1 / 0.3e1)";
  "t27 = t26 ** 2";
  "t29 = lax_cond(t21 <= p_a_zeta_threshold, t25, t27 * t21)";
  "t30 = t7 ** (0.1e1 / 0.3e1)";
  "t31 = t30 ** 2";
  "t34 = 6 ** (0.1e1 / 0.3e1)";
  "t35 = t34 ** 2";
  "t36 = params_a_mu[0] * t35";
  "t37 = math.pi ** 2";
  "t38 = t37 ** (0.1e1 / 0.3e1)";
  "t39 = 0.1e1 / t38";
  "t40 = math.sqrt(s0)";
  "t42 = r0 ** (0.1e1 / 0.3e1)";
  "t49 = params_a_mu[1] * t34";
  "t50 = t38 ** 2";
  "t51 = 0.1e1 / t50";
  "t53 = r0 ** 2";
  "t54 = t42 ** 2";
  "t62 = params_a_mu[2] / t37";
  "t64 = t53 ** 2";
  "t73 = lax_cond(r0 <= p_a_dens_threshold, 0, 0.3e1 / 0.20e2 * t6 * t29 * t31 * (0.1e1 + t36 * t39 * t40 / t42 / r0 / 0.12e2 + t49 * t51 * s0 / t54 / t53 / 0.24e2 + t62 * t40 * s0 / t64 / 0.48e2))";
  "t75 = lax_cond(t11, t16, -t18)";
  "t76 = lax_cond(t15, t12, t75)";
  "t77 = 0.1e1 + t76";
  "t79 = t77 ** (0.1e1 / 0.3e1)";
  "t80 = t79 ** 2";
  "t82 = lax_cond(t77 <= p_a_zeta_threshold, t25, t80 * t77)";
  "t84 = math.sqrt(s2)";
  "t86 = r1 ** (0.1e1 / 0.3e1)";
  "t93 = r1 ** 2";
  "t94 = t86 ** 2";
  "t101 = t93 ** 2";
  "t110 = lax_cond(r1 <= p_a_dens_threshold, 0, 0.3e1 / 0.20e2 * t6 * t82 * t31 * (0.1e1 + t36 * t39 * t84 / t86 / r1 / 0.12e2 + t49 * t51 * s2 / t94 / t93 / 0.24e2 + t62 * t84 * s2 / t101 / 0.48e2))";
  "res = t73 + t110"]%b.

(* gen_repo/impl/prebuilt/unpol/gga_k_lgap_ge.py *)
Definition unpol_gga_k_lgap_ge : list bstr := [
  "t3 = 3 ** (0.1e1 / 0.3e1)";
  "t4 = t3 ** 2";
  "t5 = math.pi ** (0.1e1 / 0.3e1)";
  "t8 = 0.1e1 <= p_a_zeta_threshold";
  "t9 = p_a_zeta_threshold - 0.1e1";
  "t11 = lax_cond(t8, -t9, 0)";
  "t12 = lax_cond(t8, t9, t11)";
  "t13 = 0.1e1 + t12";
  "t15 = p_a_zeta_threshold ** (0.1e1 / 0.3e1)";
  "t16 = t15 ** 2";
  "t18 = t13 ** (0.1e1 / 0.3e1)";
  "t19 = t18 ** 2";
  "t21 = lax_cond(t13 <= p_a_zeta_threshold, t16 * p_a_zeta_threshold, t19 * t13)";
  "t22 = r0 ** (0.1e1 / 0.3e1)";
  "t23 = t22 ** 2";
  "t26 = 6 ** (0.1e1 / 0.3e1)";
  "t27 = t26 ** 2";
  "t29 = math.pi ** 2";
  "t30 = t29 ** (0.1e1 / 0.3e1)";
  "t33 = math.sqrt(s0)";
  "t34 = 2 ** (0.1e1 / 0.3e1)";
  "t43 = t30 ** 2";
  "t46 = t34 ** 2";
  "t48 = r0 ** 2";
  "t58 = t48 ** 2";
  "t67 = lax_cond(r0 / 0.2e1 <= p_a_dens_threshold, 0, 0.3e1 / 0.20e2 * t4 * t5 * math.pi * t21 * t23 * (0.1e1 + params_a_mu[0] * t27 / t30 * t33 * t34 / t22 / r0 / 0.12e2 + params_a_mu[1] * t26 / t43 * s0 * t46 / t23 / t48 / 0.24e2 + params_a_mu[2] / t29 * t33 * s0 / t58 / 0.24e2))";
  "res = 0.2e1 * t67"]%b.

(* gen_repo/impl/prebuilt/pol/gga_k_lkt.py *)
Definition pol_gga_k_lkt : list bstr := [
  "t2 = 3 ** (0.1e1 / 0.3e1)";
  "t3 = t2 ** 2";
  "t4 = math.pi ** (0.1e1 / 0.3e1)";
  "t6 = t3 * t4 * math.pi";
  "t7 = r0 + r1";
  "t8 = 0.1e1 / t7";
  "t11 = 0.2e1 * r0 * t8 <= p_a_zeta_threshold";
  "t12 = p_a_zeta_threshold - 0.1e1";
  "t15 = 0.2e1 * r1 * t8 <= p_a_zeta_threshold";
  "t16 = -t12";
  "t18 = (r0 - r1) * t8";
  "t19 = lax_cond(t15, t16, t18)";
  "t20 = lax_cond(t11, t12, t19)";
  "t21 = 0.1e1 + t20";
  "t23 = p_a_zeta_threshold ** (0.1e1 / 0.3e1)";
  "t24 = t23 ** 2";
  "t25 = t24 * p_a_zeta_threshold";
  "t26 = t21 ** (0.1e1 / 0.3e1)";
  "t27 = t26 ** 2";
  "t29 = lax_cond(t21 <= p_a_zeta_threshold, t25, t27 * t21)";
  "t30 = t7 ** (0.1e1 / 0.3e1)";
  "t31 = t30 ** 2";
  "t33 = 6 ** (0.1e1 / 0.3e1)";
  "t34 = t33 ** 2";
  "t35 = math.pi ** 2";
  "t36 = t35 ** (0.1e1 / 0.3e1)";
  "t38 = t34 / t36";
  "t39 = math.sqrt(s0)";
  "t40 = r0 ** (0.1e1 / 0.3e1)";
  "t45 = t38 * t39 / t40 / r0 / 0.12e2";
  "t47 = lax_cond(t45 < 0.200e3, t45, 200)";
  "t49 = math.cosh(params_a_a * t47)";
  "t51 = t36 ** 2";
  "t53 = t33 / t51";
  "t54 = r0 ** 2";
  "t55 = t40 ** 2";
  "t65 = lax_cond(r0 <= p_a_dens_threshold, 0, 0.3e1 / 0.20e2 * t6 * t29 * t31 * (0.1e1 / t49 + 0.5e1 / 0.72e2 * t53 * s0 / t55 / t54))";
  "t67 = lax_cond(t11, t16, -t18)";
  "t68 = lax_cond(t15, t12, t67)";
  "t69 = 0.1e1 + t68";
  "t71 = t69 ** (0.1e1 / 0.3e1)";
  "t72 = t71 ** 2";
  "t74 = lax_cond(t69 <= p_a_zeta_threshold, t25, t72 * t69)";
  "t76 = math.sqrt(s2)";
  "t77 = r1 ** (0.1e1 / 0.3e1)";
  "t82 = t38 * t76 / t77 / r1 / 0.12e2";
  "t84 = lax_cond(t82 < 0.200e3, t82, 200)";
  "t86 = math.cosh(params_a_a * t84)";
  "t88 = r1 ** 2";
  "t89 = t77 ** 2";
  "t99 = lax_cond(r1 <= p_a_dens_threshold, 0, 0.3e1 / 0.20e2 * t6 * t74 * t31 * (0.1e1 / t86 + 0.5e1 / 0.72e2 * t53 * s2 / t89 / t88))";
  "res = t65 + t99"]%b.

(* gen_repo/impl/prebuilt/unpol/gga_k_lkt.py *)
Definition unpol_gga_k_lkt : list bstr := [
  "t3 = 3 ** (0.1e1 / 0.3e1)";
  "t4 = t3 ** 2";
  "t5 = math.pi ** (0.1e1 / 0.3e1)";
  "t8 = 0.1e1 <= p_a_zeta_threshold";
  "t9 = p_a_zeta_threshold - 0.1e1";
  "t11 = lax_cond(t8, -t9, 0)";
  "t12 = lax_cond(t8, t9, t11)";
  "t13 = 0.1e1 + t12";
  "t15 = p_a_zeta_threshold ** (0.1e1 / 0.3e1)";
  "t16 = t15 ** 2";
  "t18 = t13 ** (0.1e1 / 0.3e1)";
  "t19 = t18 ** 2";
  "t21 = lax_cond(t13 <= p_a_zeta_threshold, t16 * p_a_zeta_threshold, t19 * t13)";
  "t22 = r0 ** (0.1e1 / 0.3e1)";
  "t23 = t22 ** 2";
  "t25 = 6 ** (0.1e1 / 0.3e1)";
  "t26 = t25 ** 2";
  "t27 = math.pi ** 2";
  "t28 = t27 ** (0.1e1 / 0.3e1)";
  "t31 = math.sqrt(s0)";
  "t32 = 2 ** (0.1e1 / 0.3e1)";
  "t38 = t26 / t28 * t31 * t32 / t22 / r0 / 0.12e2";
  "t40 = lax_cond(t38 < 0.200e3, t38, 200)";
  "t42 = math.cosh(params_a_a * t40)";
  "t44 = t28 ** 2";
  "t47 = t32 ** 2";
  "t49 = r0 ** 2";
  "t59 = lax_cond(r0 / 0.2e1 <= p_a_dens_threshold, 0, 0.3e1 / 0.20e2 * t4 * t5 * math.pi * t21 * t23 * (0.1e1 / t42 + 0.5e1 / 0.72e2 * t25 / t44 * s0 * t47 / t23 / t49))";
  "res = 0.2e1 * t59"]%b.

(* gen_repo/impl/prebuilt/pol/gga_k_llp.py *)
Definition pol_gga_k_llp : list bstr := [
  "t2 = 3 ** (0.1e1 / 0.3e1)";
  "t3 = t2 ** 2";
  "t4 = math.pi ** (0.1e1 / 0.3e1)";
  "t6 = t3 * t4 * math.pi";
  "t7 = r0 + r1";
  "t8 = 0.1e1 / t7";
  "t11 = 0.2e1 * r0 * t8 <= p_a_zeta_threshold";
  "t12 = p_a_zeta_threshold - 0.1e1";
  "t15 = 0.2e1 * r1 * t8 <= p_a_zeta_threshold";
  "t16 = -t12";
  "t18 = (r0 - r1) * t8";
  "t19 = lax_cond(t15, t16, t18)";
  "t20 = lax_cond(t11, t12, t19)";
  "t21 = 0.1e1 + t20";
  "t23 = p_a_zeta_threshold ** (0.1e1 / 0.3e1)";
  "t24 = t23 ** 2";
  "t25 = t24 * p_a_zeta_threshold";
  "t26 = t21 ** (0.1e1 / 0.3e1)";
  "t27 = t26 ** 2";
  "t29 = lax_cond(t21 <= p_a_zeta_threshold, t25, t27 * t21)";
  "t30 = t7 ** (0.1e1 / 0.3e1)";
  "t31 = t30 ** 2";
  "t35 = (0.1e1 / math.pi) ** (0.1e1 / 0.3e1)";
  "t37 = params_a_beta * t3 / t35";
  "t38 = 4 ** (0.1e1 / 0.3e1)";
  "t40 = r0 ** 2";
  "t41 = r0 ** (0.1e1 / 0.3e1)";
  "t42 = t41 ** 2";
  "t45 = params_a_gamma * params_a_beta";
  "t46 = math.sqrt(s0)";
  "t49 = t46 / t41 / r0";
  "t50 = math.asinh(t49)";
  "t63 = lax_cond(r0 <= p_a_dens_threshold, 0, 0.3e1 / 0.20e2 * t6 * t29 * t31 * (0.10e1 + 0.2e1 / 0.9e1 * t37 * t38 * s0 / t42 / t40 / (0.10e1 + t45 * t49 * t50)))";
  "t65 = lax_cond(t11, t16, -t18)";
  "t66 = lax_cond(t15, t12, t65)";
  "t67 = 0.1e1 + t66";
  "t69 = t67 ** (0.1e1 / 0.3e1)";
  "t70 = t69 ** 2";
  "t72 = lax_cond(t67 <= p_a_zeta_threshold, t25, t70 * t67)";
  "t75 = r1 ** 2";
  "t76 = r1 ** (0.1e1 / 0.3e1)";
  "t77 = t76 ** 2";
  "t80 = math.sqrt(s2)";
  "t83 = t80 / t76 / r1";
  "t84 = math.asinh(t83)";
  "t97 = lax_cond(r1 <= p_a_dens_threshold, 0, 0.3e1 / 0.20e2 * t6 * t72 * t31 * (0.10e1 + 0.2e1 / 0.9e1 * t37 * t38 * s2 / t77 / t75 / (0.10e1 + t45 * t83 * t84)))";
  "res = t63 + t97"]%b.

(* gen_repo/impl/prebuilt/unpol/gga_k_llp.py *)
Definition unpol_gga_k_llp : list bstr := [
  "t3 = 3 ** (0.1e1 / 0.3e1)";
  "t4 = t3 ** 2";
  "t5 = math.pi ** (0.1e1 / 0.3e1)";
  "t8 = 0.1e1 <= p_a_zeta_threshold";
  "t9 = p_a_zeta_threshold - 0.1e1";
  "t11 = lax_cond(t8, -t9, 0)";
  "t12 = lax_cond(t8, t9, t11)";
  "t13 = 0.1e1 + t12";
  "t15 = p_a_zeta_threshold ** (0.1e1 / 0.3e1)";
  "t16 = t15 ** 2";
  "t18 = t13 ** (0.1e1 / 0.3e1)";
  "t19 = t18 ** 2";
  "t21 = lax_cond(t13 <= p_a_zeta_threshold, t16 * p_a_zeta_threshold, t19 * t13)";
  "t22 = r0 ** (0.1e1 / 0.3e1)";
  "t23 = t22 ** 2";
  "t27 = (0.1e1 / math.pi) ** (0.1e1 / 0.3e1)";
  "t29 = 4 ** (0.1e1 / 0.3e1)";
  "t32 = 2 ** (0.1e1 / 0.3e1)";
  "t33 = t32 ** 2";
  "t35 = r0 ** 2";
  "t39 = math.sqrt(s0)";
  "t42 = 0.1e1 / t22 / r0";
  "t46 = math.asinh(t39 * t32 * t42)";
  "t59 = lax_cond(r0 / 0.2e1 <= p_a_dens_threshold, 0, 0.3e1 / 0.20e2 * t4 * t5 * math.pi * t21 * t23 * (0.10e1 + 0.2e1 / 0.9e1 * params_a_beta * t4 / t27 * t29 * s0 * t33 / t23 / t35 / (0.10e1 + params_a_gamma * params_a_beta * t39 * t32 * t42 * t46)))";
  "res = 0.2e1 * t59"]%b.

(* gen_repo/impl/prebuilt/pol/gga_k_meyer.py *)
Definition pol_gga_k_meyer : list bstr := [
  "t2 = 3 ** (0.1e1 / 0.3e1)";
  "t3 = t2 ** 2";
  "t4 = math.pi ** (0.1e1 / 0.3e1)";
  "t6 = t3 * t4 * math.pi";
  "t7 = r0 + r1";
  "t8 = 0.1e1 / t7";
  "t11 = 0.2e1 * r0 * t8 <= p_a_zeta_threshold";
  "t12 = p_a_zeta_threshold - 0.1e1";
  "t15 = 0.2e1 * r1 * t8 <= p_a_zeta_threshold";
  "t16 = -t12";
  "t18 = (r0 - r1) * t8";
  "t19 = lax_cond(t15, t16, t18)";
  "t20 = lax_cond(t11, t12, t19)";
  "t21 = 0.1e1 + t20";
  "t23 = p_a_zeta_threshold ** (0.1e1 / 0.3e1)";
  "t24 = t23 ** 2";
  "t25 = t24 * p_a_zeta_threshold";
  "t26 = t21 ** (0.1e1 / 0.3e1)";
  "t27 = t26 ** 2";
  "t29 = lax_cond(t21 <= p_a_zeta_threshold, t25, t27 * t21)";
  "t30 = t7 ** (0.1e1 / 0.3e1)";
  "t31 = t30 ** 2";
  "t33 = 6 ** (0.1e1 / 0.3e1)";
  "t34 = math.pi ** 2";
  "t35 = t34 ** (0.1e1 / 0.3e1)";
  "t36 = t35 ** 2";
  "t38 = t33 / t36";
  "t39 = r0 ** 2";
  "t40 = r0 ** (0.1e1 / 0.3e1)";
  "t41 = t40 ** 2";
  "t48 = t33 ** 2";
  "t50 = t48 / t35";
  "t51 = math.sqrt(s0)";
  "t52 = t40 * r0";
  "t56 = t50 * t51 / t52 / 0.72e2";
  "t59 = abs(0.1e1 - t56)";
  "t62 = math.log((0.1e1 + t56) / t59)";
  "t69 = 0.3e1 * (0.1e1 - t38 * s0 / t41 / t39 / 0.864e3) * t62 * t33 * t35 / t51 * t52";
  "t79 = lax_cond(r0 <= p_a_dens_threshold, 0, 0.3e1 / 0.20e2 * t6 * t29 * t31 * (0.1e1 + 0.20e2 * (0.1e1 / 0.2e1 - t69) / (0.1e1 / 0.2e1 + t69)))";
  "t81 = lax_cond(t11, t16, -t18)";
  "t82 = lax_cond(t15, t12, t81)";
  "t83 = 0.1e1 + t82";
  "t85 = t83 ** (0.1e1 / 0.3e1)";
  "t86 = t85 ** 2";
  "t88 = lax_cond(t83 <= p_a_zeta_threshold, t25, t86 * t83)";
  "t90 = r1 ** 2";
  "t91 = r1 ** (0.1e1 / 0.3e1)";
  "t92 = t91 ** 2";
  "t99 = math.sqrt(s2)";
  "t100 = t91 * r1";
  "t104 = t50 * t99 / t100 / 0.72e2";
  "t107 = abs(0.1e1 - t104)";
  "t110 = math.log((0.1e1 + t104) / t107)";
  "t117 = 0.3e1 * (0.1e1 - t38 * s2 / t92 / t90 / 0.864e3) * t110 * t33 * t35 / t99 * t100";
  "t127 = lax_cond(r1 <= p_a_dens_threshold, 0, 0.3e1 / 0.20e2 * t6 * t88 * t31 * (0.1e1 + 0.20e2 * (0.1e1 / 0.2e1 - t117) / (0.1e1 / 0.2e1 + t117)))";
  "res = t79 + t127"]%b.

(* gen_repo/impl/prebuilt/unpol/gga_k_meyer.py *)
Definition unpol_gga_k_meyer : list bstr := [
  "t3 = 3 ** (0.1e1 / 0.3e1)";
  "t4 = t3 ** 2";
  "t5 = math.pi ** (0.1e1 / 0.3e1)";
  "t8 = 0.1e1 <= p_a_zeta_threshold";
  "t9 = p_a_zeta_threshold - 0.1e1";
  "t11 = lax_cond(t8, -t9, 0)";
  "t12 = lax_cond(t8, t9, t11)";
  "t13 = 0.1e1 + t12";
  "t15 = p_a_zeta_threshold ** (0.1e1 / 0.3e1)";
  "t16 = t15 ** 2";
  "t18 = t13 ** (0.1e1 / 0.3e1)";
  "t19 = t18 ** 2";
  "t21 = lax_cond(t13 <= p_a_zeta_threshold, t16 * p_a_zeta_threshold, t19 * t13)";
  "t22 = r0 ** (0.1e1 / 0.3e1)";
  "t23 = t22 ** 2";
  "t25 = 6 ** (0.1e1 / 0.3e1)";
  "t26 = math.pi ** 2";
  "t27 = t26 ** (0.1e1 / 0.3e1)";
  "t28 = t27 ** 2";
  "t31 = 2 ** (0.1e1 / 0.3e1)";
  "t32 = t31 ** 2";
  "t34 = r0 ** 2";
  "t41 = t25 ** 2";
  "t44 = math.sqrt(s0)";
  "t46 = t22 * r0";
  "t50 = t41 / t27 * t44 * t31 / t46 / 0.72e2";
  "t53 = abs(0.1e1 - t50)";
  "t56 = math.log((0.1e1 + t50) / t53)";
  "t64 = 0.3e1 / 0.2e1 * (0.1e1 - t25 / t28 * s0 * t32 / t23 / t34 / 0.864e3) * t56 * t25 * t27 / t44 * t32 * t46";
  "t74 = lax_cond(r0 / 0.2e1 <= p_a_dens_threshold, 0, 0.3e1 / 0.20e2 * t4 * t5 * math.pi * t21 * t23 * (0.1e1 + 0.20e2 * (0.1e1 / 0.2e1 - t64) / (0.1e1 / 0.2e1 + t64)))";
  "res = 0.2e1 * t74"]%b.

(* gen_repo/impl/prebuilt/pol/gga_k_mpbe.py *)
Definition pol_gga_k_mpbe : list bstr := [
  "t2 = 3 ** (0.1e1 / 0.3e1)";
  "t3 = t2 ** 2";
  "t4 = math.pi ** (0.1e1 / 0.3e1)";
  "t6 = t3 * t4 * math.pi";
  "t7 = r0 + r1";
  "t8 = 0.1e1 / t7";
  "t11 = 0.2e1 * r0 * t8 <= p_a_zeta_threshold";
  "t12 = p_a_zeta_threshold - 0.1e1";
  "t15 = 0.2e1 * r1 * t8 <= p_a_zeta_threshold";
  "t16 = -t12";
  "t18 = (r0 - r1) * t8";
  "t19 = lax_cond(t15, t16, t18)";
  "t20 = lax_cond(t11, t12, t19)";
  "t21 = 0.1e1 + t20";
  "t23 = p_a_zeta_threshold ** (0.1e1 / 0.3e1)";
  "t24 = t23 ** 2";
  "t25 = t24 * p_a_zeta_threshold";
  "t26 = t21 ** (0.1e1 / 0.3e1)";
  "t27 = t26 ** 2";
  "t29 = lax_cond(t21 <= p_a_zeta_threshold, t25, t27 * t21)";
  "t30 = t7 ** (0.1e1 / 0.3e1)";
  "t31 = t30 ** 2";
  "t33 = 6 ** (0.1e1 / 0.3e1)";
  "t35 = math.pi ** 2";
  "t36 = t35 ** (0.1e1 / 0.3e1)";
  "t37 = t36 ** 2";
  "t38 = 0.1e1 / t37";
  "t39 = params_a_c1 * t33 * t38";
  "t40 = r0 ** 2";
  "t41 = r0 ** (0.1e1 / 0.3e1)";
  "t42 = t41 ** 2";
  "t44 = 0.1e1 / t42 / t40";
  "t46 = params_a_a * t33";
  "t51 = 0.1e1 + t46 * t38 * s0 * t44 / 0.24e2";
  "t56 = t33 ** 2";
  "t60 = params_a_c2 * t56 / t36 / t35";
  "t61 = s0 ** 2";
  "t62 = t40 ** 2";
  "t67 = t51 ** 2";
  "t72 = t35 ** 2";
  "t74 = params_a_c3 / t72";
  "t76 = t62 ** 2";
  "t88 = lax_cond(r0 <= p_a_dens_threshold, 0, 0.3e1 / 0.20e2 * t6 * t29 * t31 * (0.1e1 + t39 * s0 * t44 / t51 / 0.24e2 + t60 * t61 / t41 / t62 / r0 / t67 / 0.576e3 + t74 * t61 * s0 / t76 / t67 / t51 / 0.2304e4))";
  "t90 = lax_cond(t11, t16, -t18)";
  "t91 = lax_cond(t15, t12, t90)";
  "t92 = 0.1e1 + t91";
  "t94 = t92 ** (0.1e1 / 0.3e1)";
  "t95 = t94 ** 2";
  "t97 = lax_cond(t92 <= p_a_zeta_threshold, t25, t95 * t92)";
  "t99 = r1 ** 2";
  "t100 = r1 ** (0.1e1 / 0.3e1)";
  "t101 = t100 ** 2";
  "t103 = 0.1e1 / t101 / t99";
  "t109 = 0.1e1 + t46 * t38 * s2 * t103 / 0.24e2";
  "t114 = s2 ** 2";
  "t115 = t99 ** 2";
  "t120 = t109 ** 2";
  "t126 = t115 ** 2";
  "t138 = lax_cond(r1 <= p_a_dens_threshold, 0, 0.3e1 / 0.20e2 * t6 * t97 * t31 * (0.1e1 + t39 * s2 * t103 / t109 / 0.24e2 + t60 * t114 / t100 / t115 / r1 / t120 / 0.576e3 + t74 * t114 * s2 / t126 / t120 / t109 / 0.2304e4))";
  "res = t88 + t138"]%b.

(* gen_repo/impl/prebuilt/unpol/gga_k_mpbe.py *)
Definition unpol_gga_k_mpbe : list bstr := [
  "t3 = 3 ** (0.1e1 / 0.3e1)";
  "t4 = t3 ** 2";
  "t5 = math.pi ** (0.1e1 / 0.3e1)";
  "t8 = 0.1e1 <= p_a_zeta_threshold";
  "t9 = p_a_zeta_threshold - 0.1e1";
  "t11 = lax_cond(t8, -t9, 0)";
  "t12 = lax_cond(t8, t9, t11)";
  "t13 = 0.1e1 + t12";
  "t15 = p_a_zeta_threshold ** (0.1e1 / 0.3e1)";
  "t16 = t15 ** 2";
  "t18 = t13 ** (0.1e1 / 0.3e1)";
  "t19 = t18 ** 2";
  "t21 = lax_cond(t13 <= p_a_zeta_threshold, t16 * p_a_zeta_threshold, t19 * t13)";
  "t22 = r0 ** (0.1e1 / 0.3e1)";
  "t23 = t22 ** 2";
  "t25 = 6 ** (0.1e1 / 0.3e1)";
  "t27 = math.pi ** 2";
  "t28 = t27 ** (0.1e1 / 0.3e1)";
  "t29 = t28 ** 2";
  "t30 = 0.1e1 / t29";
  "t32 = 2 ** (0.1e1 / 0.3e1)";
  "t33 = t32 ** 2";
  "t34 = s0 * t33";
  "t35 = r0 ** 2";
  "t37 = 0.1e1 / t23 / t35";
  "t43 = 0.1e1 + params_a_a * t25 * t30 * t34 * t37 / 0.24e2";
  "t49 = t25 ** 2";
  "t54 = s0 ** 2";
  "t56 = t35 ** 2";
  "t60 = t43 ** 2";
  "t66 = t27 ** 2";
  "t70 = t56 ** 2";
  "t82 = lax_cond(r0 / 0.2e1 <= p_a_dens_threshold, 0, 0.3e1 / 0.20e2 * t4 * t5 * math.pi * t21 * t23 * (0.1e1 + params_a_c1 * t25 * t30 * t34 * t37 / t43 / 0.24e2 + params_a_c2 * t49 / t28 / t27 * t54 * t32 / t22 / t56 / r0 / t60 / 0.288e3 + params_a_c3 / t66 * t54 * s0 / t70 / t60 / t43 / 0.576e3))";
  "res = 0.2e1 * t82"]%b.

(* gen_repo/impl/prebuilt/pol/gga_k_ol1.py *)
Definition pol_gga_k_ol1 : list bstr := [
  "t2 = 3 ** (0.1e1 / 0.3e1)";
  "t3 = t2 ** 2";
  "t4 = math.pi ** (0.1e1 / 0.3e1)";
  "t6 = t3 * t4 * math.pi";
  "t7 = r0 + r1";
  "t8 = 0.1e1 / t7";
  "t11 = 0.2e1 * r0 * t8 <= p_a_zeta_threshold";
  "t12 = p_a_zeta_threshold - 0.1e1";
  "t15 = 0.2e1 * r1 * t8 <= p_a_zeta_threshold";
  "t16 = -t12";
  "t18 = (r0 - r1) * t8";
  "t19 = lax_cond(t15, t16, t18)";
  "t20 = lax_cond(t11, t12, t19)";
  "t21 = 0.1e1 + t20";
  "t23 = p_a_zeta_threshold ** (0.1e1 / 0.3e1)";
  "t24 = t23 ** 2";
  "t25 = t24 * p_a_zeta_threshold";
  "t26 = t21 ** (0.1e1 / 0.3e1)";
  "t27 = t26 ** 2";
  "t29 = lax_cond(t21 <= p_a_zeta_threshold, t25, t27 * t21)";
  "t30 = t7 ** (0.1e1 / 0.3e1)";
  "t31 = t30 ** 2";
  "t33 = r0 ** 2";
  "t34 = r0 ** (0.1e1 / 0.3e1)";
  "t35 = t34 ** 2";
  "t40 = 2 ** (0.1e1 / 0.3e1)";
  "t41 = math.sqrt(s0)";
  "t48 = 6 ** (0.1e1 / 0.3e1)";
  "t50 = math.pi ** 2";
  "t51 = t50 ** (0.1e1 / 0.3e1)";
  "t52 = t51 ** 2";
  "t53 = 0.1e1 / t52";
  "t60 = lax_cond(r0 <= p_a_dens_threshold, 0, 0.3e1 / 0.20e2 * t6 * t29 * t31 * (0.1e1 + 0.5e1 / 0.9e1 * (s0 / t35 / t33 / 0.72e2 + 0.677e-2 * t40 * t41 / t34 / r0) * t48 * t53))";
  "t62 = lax_cond(t11, t16, -t18)";
  "t63 = lax_cond(t15, t12, t62)";
  "t64 = 0.1e1 + t63";
  "t66 = t64 ** (0.1e1 / 0.3e1)";
  "t67 = t66 ** 2";
  "t69 = lax_cond(t64 <= p_a_zeta_threshold, t25, t67 * t64)";
  "t71 = r1 ** 2";
  "t72 = r1 ** (0.1e1 / 0.3e1)";
  "t73 = t72 ** 2";
  "t78 = math.sqrt(s2)";
  "t92 = lax_cond(r1 <= p_a_dens_threshold, 0, 0.3e1 / 0.20e2 * t6 * t69 * t31 * (0.1e1 + 0.5e1 / 0.9e1 * (s2 / t73 / t71 / 0.72e2 + 0.677e-2 * t40 * t78 / t72 / r1) * t48 * t53))";
  "res = t60 + t92"]%b.

(* gen_repo/impl/prebuilt/unpol/gga_k_ol1.py *)
Definition unpol_gga_k_ol1 : list bstr := [
  "t3 = 3 ** (0.1e1 / 0.3e1)";
  "t4 = t3 ** 2";
  "t5 = math.pi ** (0.1e1 / 0.3e1)";
  "t8 = 0.1e1 <= p_a_zeta_threshold";
  "t9 = p_a_zeta_threshold - 0.1e1";
  "t11 = lax_cond(t8, -t9, 0)";
  "t12 = lax_cond(t8, t9, t11)";
  "t13 = 0.1e1 + t12";
  "t15 = p_a_zeta_threshold ** (0.1e1 / 0.3e1)";
  "t16 = t15 ** 2";
  "t18 = t13 ** (0.1e1 / 0.3e1)";
  "t19 = t18 ** 2";
  "t21 = lax_cond(t13 <= p_a_zeta_threshold, t16 * p_a_zeta_threshold, t19 * t13)";
  "t22 = r0 ** (0.1e1 / 0.3e1)";
  "t23 = t22 ** 2";
  "t25 = 2 ** (0.1e1 / 0.3e1)";
  "t26 = t25 ** 2";
  "t28 = r0 ** 2";
  "t33 = math.sqrt(s0)";
  "t40 = 6 ** (0.1e1 / 0.3e1)";
  "t42 = math.pi ** 2";
  "t43 = t42 ** (0.1e1 / 0.3e1)";
  "t44 = t43 ** 2";
  "t52 = lax_cond(r0 / 0.2e1 <= p_a_dens_threshold, 0, 0.3e1 / 0.20e2 * t4 * t5 * math.pi * t21 * t23 * (0.1e1 + 0.5e1 / 0.9e1 * (s0 * t26 / t23 / t28 / 0.72e2 + 0.677e-2 * t26 * t33 / t22 / r0) * t40 / t44))";
  "res = 0.2e1 * t52"]%b.

(* gen_repo/impl/prebuilt/pol/gga_k_ol2.py *)
Definition pol_gga_k_ol2 : list bstr := [
  "t2 = 3 ** (0.1e1 / 0.3e1)";
  "t3 = t2 ** 2";
  "t4 = math.pi ** (0.1e1 / 0.3e1)";
  "t6 = t3 * t4 * math.pi";
  "t7 = r0 + r1";
  "t8 = 0.1e1 / t7";
  "t11 = 0.2e1 * r0 * t8 <= p_a_zeta_threshold";
  "t12 = p_a_zeta_threshold - 0.1e1";
  "t15 = 0.2e1 * r1 * t8 <= p_a_zeta_threshold";
  "t16 = -t12";
  "t18 = (r0 - r1) * t8";
  "t19 = lax_cond(t15, t16, t18)";
  "t20 = lax_cond(t11, t12, t19)";
  "t21 = 0.1e1 + t20";
  "t23 = p_a_zeta_threshold ** (0.1e1 / 0.3e1)";
  "t24 = t23 ** 2";
  "t25 = t24 * p_a_zeta_threshold";
  "t26 = t21 ** (0.1e1 / 0.3e1)";
  "t27 = t26 ** 2";
  "t29 = lax_cond(t21 <= p_a_zeta_threshold, t25, t27 * t21)";
  "t30 = t7 ** (0.1e1 / 0.3e1)";
  "t31 = t30 ** 2";
  "t34 = r0 ** 2";
  "t35 = r0 ** (0.1e1 / 0.3e1)";
  "t36 = t35 ** 2";
  "t41 = math.sqrt(s0)";
  "t44 = 0.1e1 / t35 / r0";
  "t45 = 2 ** (0.1e1 / 0.3e1)";
  "t56 = lax_cond(r0 <= p_a_dens_threshold, 0, 0.3e1 / 0.20e2 * t6 * t29 * t31 * (params_a_aa + 0.13888888888888888889e-1 * params_a_bb * s0 / t36 / t34 + params_a_cc * t41 * t44 / (0.4e1 * t41 * t44 + t45)))";
  "t58 = lax_cond(t11, t16, -t18)";
  "t59 = lax_cond(t15, t12, t58)";
  "t60 = 0.1e1 + t59";
  "t62 = t60 ** (0.1e1 / 0.3e1)";
  "t63 = t62 ** 2";
  "t65 = lax_cond(t60 <= p_a_zeta_threshold, t25, t63 * t60)";
  "t68 = r1 ** 2";
  "t69 = r1 ** (0.1e1 / 0.3e1)";
  "t70 = t69 ** 2";
  "t75 = math.sqrt(s2)";
  "t78 = 0.1e1 / t69 / r1";
  "t89 = lax_cond(r1 <= p_a_dens_threshold, 0, 0.3e1 / 0.20e2 * t6 * t65 * t31 * (params_a_aa + 0.13888888888888888889e-1 * params_a_bb * s2 / t70 / t68 + params_a_cc * t75 * t78 / (0.4e1 * t75 * t78 + t45)))";
  "res = t56 + t89"]%b.

(* gen_repo/impl/prebuilt/unpol/gga_k_ol2.py *)
Definition unpol_gga_k_ol2 : list bstr := [
  "t3 = 3 ** (0.1e1 / 0.3e1)";
  "t4 = t3 ** 2";
  "t5 = math.pi ** (0.1e1 / 0.3e1)";
  "t8 = 0.1e1 <= p_a_zeta_threshold";
  "t9 = p_a_zeta_threshold - 0.1e1";
  "t11 = lax_cond(t8, -t9, 0)";
  "t12 = lax_cond(t8, t9, t11)";
  "t13 = 0.1e1 + t12";
  "t15 = p_a_zeta_threshold ** (0.1e1 / 0.3e1)";
  "t16 = t15 ** 2";
  "t18 = t13 ** (0.1e1 / 0.3e1)";
  "t19 = t18 ** 2";
  "t21 = lax_cond(t13 <= p_a_zeta_threshold, t16 * p_a_zeta_threshold, t19 * t13)";
  "t22 = r0 ** (0.1e1 / 0.3e1)";
  "t23 = t22 ** 2";
  "t26 = 2 ** (0.1e1 / 0.3e1)";
  "t27 = t26 ** 2";
  "t28 = r0 ** 2";
  "t34 = math.sqrt(s0)";
  "t37 = 0.1e1 / t22 / r0";
  "t50 = lax_cond(r0 / 0.2e1 <= p_a_dens_threshold, 0, 0.3e1 / 0.20e2 * t4 * t5 * math.pi * t21 * t23 * (params_a_aa + 0.13888888888888888889e-1 * params_a_bb * s0 * t27 / t23 / t28 + params_a_cc * t34 * t26 * t37 / (0.4e1 * t34 * t26 * t37 + t26)))";
  "res = 0.2e1 * t50"]%b.

(* gen_repo/impl/prebuilt/pol/gga_k_pearson.py *)
Definition pol_gga_k_pearson : list bstr := [
  "t2 = 3 ** (0.1e1 / 0.3e1)";
  "t3 = t2 ** 2";
  "t4 = math.pi ** (0.1e1 / 0.3e1)";
  "t6 = t3 * t4 * math.pi";
  "t7 = r0 + r1";
  "t8 = 0.1e1 / t7";
  "t11 = 0.2e1 * r0 * t8 <= p_a_zeta_threshold";
  "t12 = p_a_zeta_threshold - 0.1e1";
  "t15 = 0.2e1 * r1 * t8 <= p_a_zeta_threshold";
  "t16 = -t12";
  "t18 = (r0 - r1) * t8";
  "t19 = lax_cond(t15, t16, t18)";
  "t20 = lax_cond(t11, t12, t19)";
  "t21 = 0.1e1 + t20";
  "t23 = p_a_zeta_threshold ** (0.1e1 / 0.3e1)";
  "t24 = t23 ** 2";
  "t25 = t24 * p_a_zeta_threshold";
  "t26 = t21 ** (0.1e1 / 0.3e1)";
  "t27 = t26 ** 2";
  "t29 = lax_cond(t21 <= p_a_zeta_threshold, t25, t27 * t21)";
  "t30 = t7 ** (0.1e1 / 0.3e1)";
  "t31 = t30 ** 2";
  "t33 = 6 ** (0.1e1 / 0.3e1)";
  "t34 = math.pi ** 2";
  "t35 = t34 ** (0.1e1 / 0.3e1)";
  "t36 = t35 ** 2";
  "t38 = t33 / t36";
  "t39 = r0 ** 2";
  "t40 = r0 ** (0.1e1 / 0.3e1)";
  "t41 = t40 ** 2";
  "t45 = t34 ** 2";
  "t46 = 0.1e1 / t45";
  "t47 = s0 ** 2";
  "t50 = t39 ** 2";
  "t51 = t50 ** 2";
  "t64 = lax_cond(r0 <= p_a_dens_threshold, 0, 0.3e1 / 0.20e2 * t6 * t29 * t31 * (0.1e1 + 0.5e1 / 0.648e3 * t38 * s0 / t41 / t39 / (0.1e1 + t46 * t47 * s0 / t51 / 0.2304e4)))";
  "t66 = lax_cond(t11, t16, -t18)";
  "t67 = lax_cond(t15, t12, t66)";
  "t68 = 0.1e1 + t67";
  "t70 = t68 ** (0.1e1 / 0.3e1)";
  "t71 = t70 ** 2";
  "t73 = lax_cond(t68 <= p_a_zeta_threshold, t25, t71 * t68)";
  "t75 = r1 ** 2";
  "t76 = r1 ** (0.1e1 / 0.3e1)";
  "t77 = t76 ** 2";
  "t81 = s2 ** 2";
  "t84 = t75 ** 2";
  "t85 = t84 ** 2";
  "t98 = lax_cond(r1 <= p_a_dens_threshold, 0, 0.3e1 / 0.20e2 * t6 * t73 * t31 * (0.1e1 + 0.5e1 / 0.648e3 * t38 * s2 / t77 / t75 / (0.1e1 + t46 * t81 * s2 / t85 / 0.2304e4)))";
  "res = t64 + t98"]%b.

(* gen_repo/impl/prebuilt/unpol/gga_k_pearson.py *)
Definition unpol_gga_k_pearson : list bstr := [
  "t3 = 3 ** (0.1e1 / 0.3e1)";
  "t4 = t3 ** 2";
  "t5 = math.pi ** (0.1e1 / 0.3e1)";
  "t8 = 0.1e1 <= p_a_zeta_threshold";
  "t9 = p_a_zeta_threshold - 0.1e1";
  "t11 = lax_cond(t8, -t9, 0)";
  "t12 = lax_cond(t8, t9, t11)";
  "t13 = 0.1e1 + t12";
  "t15 = p_a_zeta_threshold ** (0.1e1 / 0.3e1)";
  "t16 = t15 ** 2";
  "t18 = t13 ** (0.1e1 / 0.3e1)";
  "t19 = t18 ** 2";
  "t21 = lax_cond(t13 <= p_a_zeta_threshold, t16 * p_a_zeta_threshold, t19 * t13)";
  "t22 = r0 ** (0.1e1 / 0.3e1)";
  "t23 = t22 ** 2";
  "t25 = 6 ** (0.1e1 / 0.3e1)";
  "t26 = math.pi ** 2";
  "t27 = t26 ** (0.1e1 / 0.3e1)";
  "t28 = t27 ** 2";
  "t32 = 2 ** (0.1e1 / 0.3e1)";
  "t33 = t32 ** 2";
  "t34 = r0 ** 2";
  "t38 = t26 ** 2";
  "t40 = s0 ** 2";
  "t43 = t34 ** 2";
  "t44 = t43 ** 2";
  "t57 = lax_cond(r0 / 0.2e1 <= p_a_dens_threshold, 0, 0.3e1 / 0.20e2 * t4 * t5 * math.pi * t21 * t23 * (0.1e1 + 0.5e1 / 0.648e3 * t25 / t28 * s0 * t33 / t23 / t34 / (0.1e1 + 0.1e1 / t38 * t40 * s0 / t44 / 0.576e3)))";
  "res = 0.2e1 * t57"]%b.

(* gen_repo/impl/prebuilt/pol/gga_k_pg.py *)
Definition pol_gga_k_pg : list bstr := [
  "t2 = 3 ** (0.1e1 / 0.3e1)";
  "t3 = t2 ** 2";
  "t4 = math.pi ** (0.1e1 / 0.3e1)";
  "t6 = t3 * t4 * math.pi";
  "t7 = r0 + r1";
  "t8 = 0.1e1 / t7";
  "t11 = 0.2e1 * r0 * t8 <= p_a_zeta_threshold";
  "t12 = p_a_zeta_threshold - 0.1e1";
  "t15 = 0.2e1 * r1 * t8 <= p_a_zeta_threshold";
  "t16 = -t12";
  "t18 = (r0 - r1) * t8";
  "t19 = lax_cond(t15, t16, t18)";
  "t20 = lax_cond(t11, t12, t19)";
  "t21 = 0.1e1 + t20";
  "t23 = p_a_zeta_threshold ** (0.1e1 / 0.3e1)";
  "t24 = t23 ** 2";
  "t25 = t24 * p_a_zeta_threshold";
  "t26 = t21 ** (0.1e1 / 0.3e1)";
  "t27 = t26 ** 2";
  "t29 = lax_cond(t21 <= p_a_zeta_threshold, t25, t27 * t21)";
  "t30 = t7 ** (0.1e1 / 0.3e1)";
  "t31 = t30 ** 2";
  "t33 = 6 ** (0.1e1 / 0.3e1)";
  "t34 = math.pi ** 2";
  "t35 = t34 ** (0.1e1 / 0.3e1)";
  "t36 = t35 ** 2";
  "t37 = 0.1e1 / t36";
  "t38 = t33 * t37";
  "t39 = r0 ** 2";
  "t40 = r0 ** (0.1e1 / 0.3e1)";
  "t41 = t40 ** 2";
  "t43 = 0.1e1 / t41 / t39";
  "t47 = params_a_pg_mu * t33";
  "t52 = math.exp(-t47 * t37 * s0 * t43 / 0.24e2)";
  "t57 = lax_cond(r0 <= p_a_dens_threshold, 0, 0.3e1 / 0.20e2 * t6 * t29 * t31 * (0.5e1 / 0.72e2 * t38 * s0 * t43 + t52))";
  "t59 = lax_cond(t11, t16, -t18)";
  "t60 = lax_cond(t15, t12, t59)";
  "t61 = 0.1e1 + t60";
  "t63 = t61 ** (0.1e1 / 0.3e1)";
  "t64 = t63 ** 2";
  "t66 = lax_cond(t61 <= p_a_zeta_threshold, t25, t64 * t61)";
  "t68 = r1 ** 2";
  "t69 = r1 ** (0.1e1 / 0.3e1)";
  "t70 = t69 ** 2";
  "t72 = 0.1e1 / t70 / t68";
  "t80 = math.exp(-t47 * t37 * s2 * t72 / 0.24e2)";
  "t85 = lax_cond(r1 <= p_a_dens_threshold, 0, 0.3e1 / 0.20e2 * t6 * t66 * t31 * (0.5e1 / 0.72e2 * t38 * s2 * t72 + t80))";
  "res = t57 + t85"]%b.

(* gen_repo/impl/prebuilt/unpol/gga_k_pg.py *)
Definition unpol_gga_k_pg : list bstr := [
  "t3 = 3 ** (0.1e1 / 0.3e1)";
  "t4 = t3 ** 2";
  "t5 = math.pi ** (0.1e1 / 0.3e1)";
  "t8 = 0.1e1 <= p_a_zeta_threshold";
  "t9 = p_a_zeta_threshold - 0.1e1";
  "t11 = lax_cond(t8, -t9, 0)";
  "t12 = lax_cond(t8, t9, t11)";
  "t13 = 0.1e1 + t12";
  "t15 = p_a_zeta_threshold ** (0.1e1 / 0.3e1)";
  "t16 = t15 ** 2";
  "t18 = t13 ** (0.1e1 / 0.3e1)";
  "t19 = t18 ** 2";
  "t21 = lax_cond(t13 <= p_a_zeta_threshold, t16 * p_a_zeta_threshold, t19 * t13)";
  "t22 = r0 ** (0.1e1 / 0.3e1)";
  "t23 = t22 ** 2";
  "t25 = 6 ** (0.1e1 / 0.3e1)";
  "t26 = math.pi ** 2";
  "t27 = t26 ** (0.1e1 / 0.3e1)";
  "t28 = t27 ** 2";
  "t29 = 0.1e1 / t28";
  "t31 = 2 ** (0.1e1 / 0.3e1)";
  "t32 = t31 ** 2";
  "t34 = r0 ** 2";
  "t37 = s0 * t32 / t23 / t34";
  "t44 = math.exp(-params_a_pg_mu * t25 * t29 * t37 / 0.24e2)";
  "t49 = lax_cond(r0 / 0.2e1 <= p_a_dens_threshold, 0, 0.3e1 / 0.20e2 * t4 * t5 * math.pi * t21 * t23 * (0.5e1 / 0.72e2 * t25 * t29 * t37 + t44))";
  "res = 0.2e1 * t49"]%b.

(* gen_repo/impl/prebuilt/pol/gga_k_pw86.py *)
Definition pol_gga_k_pw86 : list bstr := [
  "t2 = 3 ** (0.1e1 / 0.3e1)";
  "t3 = t2 ** 2";
  "t4 = math.pi ** (0.1e1 / 0.3e1)";
  "t6 = t3 * t4 * math.pi";
  "t7 = r0 + r1";
  "t8 = 0.1e1 / t7";
  "t11 = 0.2e1 * r0 * t8 <= p_a_zeta_threshold";
  "t12 = p_a_zeta_threshold - 0.1e1";
  "t15 = 0.2e1 * r1 * t8 <= p_a_zeta_threshold";
  "t16 = -t12";
  "t18 = (r0 - r1) * t8";
  "t19 = lax_cond(t15, t16, t18)";
  "t20 = lax_cond(t11, t12, t19)";
  "t21 = 0.1e1 + t20";
  "t23 = p_a_zeta_threshold ** (0.1e1 / 0.3e1)";
  "t24 = t23 ** 2";
  "t25 = t24 * p_a_zeta_threshold";
  "t26 = t21 ** (0.1e1 / 0.3e1)";
  "t27 = t26 ** 2";
  "t29 = lax_cond(t21 <= p_a_zeta_threshold, t25, t27 * t21)";
  "t30 = t7 ** (0.1e1 / 0.3e1)";
  "t31 = t30 ** 2";
  "t33 = 6 ** (0.1e1 / 0.3e1)";
  "t34 = math.pi ** 2";
  "t35 = t34 ** (0.1e1 / 0.3e1)";
  "t36 = t35 ** 2";
  "t38 = t33 / t36";
  "t39 = r0 ** 2";
  "t40 = r0 ** (0.1e1 / 0.3e1)";
  "t41 = t40 ** 2";
  "t47 = t33 ** 2";
  "t50 = t47 / t35 / t34";
  "t51 = s0 ** 2";
  "t52 = t39 ** 2";
  "t59 = t34 ** 2";
  "t60 = 0.1e1 / t59";
  "t63 = t52 ** 2";
  "t68 = (0.1e1 + 0.91999999999999999998e-1 * t38 * s0 / t41 / t39 + 0.16093750000000000000e-1 * t50 * t51 / t40 / t52 / r0 + 0.86805555555555555555e-4 * t60 * t51 * s0 / t63) ** (0.1e1 / 0.15e2)";
  "t72 = lax_cond(r0 <= p_a_dens_threshold, 0, 0.3e1 / 0.20e2 * t6 * t29 * t31 * t68)";
  "t74 = lax_cond(t11, t16, -t18)";
  "t75 = lax_cond(t15, t12, t74)";
  "t76 = 0.1e1 + t75";
  "t78 = t76 ** (0.1e1 / 0.3e1)";
  "t79 = t78 ** 2";
  "t81 = lax_cond(t76 <= p_a_zeta_threshold, t25, t79 * t76)";
  "t83 = r1 ** 2";
  "t84 = r1 ** (0.1e1 / 0.3e1)";
  "t85 = t84 ** 2";
  "t91 = s2 ** 2";
  "t92 = t83 ** 2";
  "t101 = t92 ** 2";
  "t106 = (0.1e1 + 0.91999999999999999998e-1 * t38 * s2 / t85 / t83 + 0.16093750000000000000e-1 * t50 * t91 / t84 / t92 / r1 + 0.86805555555555555555e-4 * t60 * t91 * s2 / t101) ** (0.1e1 / 0.15e2)";
  "t110 = lax_cond(r1 <= p_a_dens_threshold, 0, 0.3e1 / 0.20e2 * t6 * t81 * t31 * t106)";
  "res = t72 + t110"]%b.

(* gen_repo/impl/prebuilt/unpol/gga_k_pw86.py *)
Definition unpol_gga_k_pw86 : list bstr := [
  "t3 = 3 ** (0.1e1 / 0.3e1)";
  "t4 = t3 ** 2";
  "t5 = math.pi ** (0.1e1 / 0.3e1)";
  "t8 = 0.1e1 <= p_a_zeta_threshold";
  "t9 = p_a_zeta_threshold - 0.1e1";
  "t11 = lax_cond(t8, -t9, 0)";
  "t12 = lax_cond(t8, t9, t11)";
  "t13 = 0.1e1 + t12";
  "t15 = p_a_zeta_threshold ** (0.1e1 / 0.3e1)";
  "t16 = t15 ** 2";
  "t18 = t13 ** (0.1e1 / 0.3e1)";
  "t19 = t18 ** 2";
  "t21 = lax_cond(t13 <= p_a_zeta_threshold, t16 * p_a_zeta_threshold, t19 * t13)";
  "t22 = r0 ** (0.1e1 / 0.3e1)";
  "t23 = t22 ** 2";
  "t25 = 6 ** (0.1e1 / 0.3e1)";
  "t26 = math.pi ** 2";
  "t27 = t26 ** (0.1e1 / 0.3e1)";
  "t28 = t27 ** 2";
  "t31 = 2 ** (0.1e1 / 0.3e1)";
  "t32 = t31 ** 2";
  "t34 = r0 ** 2";
  "t40 = t25 ** 2";
  "t44 = s0 ** 2";
  "t46 = t34 ** 2";
  "t53 = t26 ** 2";
  "t57 = t46 ** 2";
  "t62 = (0.1e1 + 0.91999999999999999998e-1 * t25 / t28 * s0 * t32 / t23 / t34 + 0.32187500000000000000e-1 * t40 / t27 / t26 * t44 * t31 / t22 / t46 / r0 + 0.34722222222222222222e-3 / t53 * t44 * s0 / t57) ** (0.1e1 / 0.15e2)";
  "t66 = lax_cond(r0 / 0.2e1 <= p_a_dens_threshold, 0, 0.3e1 / 0.20e2 * t4 * t5 * math.pi * t21 * t23 * t62)";
  "res = 0.2e1 * t66"]%b.

(* gen_repo/impl/prebuilt/pol/gga_k_rational_p.py *)
Definition pol_gga_k_rational_p : list bstr := [
  "t2 = 3 ** (0.1e1 / 0.3e1)";
  "t3 = t2 ** 2";
  "t4 = math.pi ** (0.1e1 / 0.3e1)";
  "t6 = t3 * t4 * math.pi";
  "t7 = r0 + r1";
  "t8 = 0.1e1 / t7";
  "t11 = 0.2e1 * r0 * t8 <= p_a_zeta_threshold";
  "t12 = p_a_zeta_threshold - 0.1e1";
  "t15 = 0.2e1 * r1 * t8 <= p_a_zeta_threshold";
  "t16 = -t12";
  "t18 = (r0 - r1) * t8";
  "t19 = lax_cond(t15, t16, t18)";
  "t20 = lax_cond(t11, t12, t19)";
  "t21 = 0.1e1 + t20";
  "t23 = p_a_zeta_threshold ** (0.1e1 / 0.3e1)";
  "t24 = t23 ** 2";
  "t25 = t24 * p_a_zeta_threshold";
  "t26 = t21 ** (0.1e1 / 0.3e1)";
  "t27 = t26 ** 2";
  "t29 = lax_cond(t21 <= p_a_zeta_threshold, t25, t27 * t21)";
  "t30 = t7 ** (0.1e1 / 0.3e1)";
  "t31 = t30 ** 2";
  "t35 = 6 ** (0.1e1 / 0.3e1)";
  "t36 = params_a_C2 / params_a_p * t35";
  "t37 = math.pi ** 2";
  "t38 = t37 ** (0.1e1 / 0.3e1)";
  "t39 = t38 ** 2";
  "t40 = 0.1e1 / t39";
  "t42 = r0 ** 2";
  "t43 = r0 ** (0.1e1 / 0.3e1)";
  "t44 = t43 ** 2";
  "t51 = (0.1e1 + t36 * t40 * s0 / t44 / t42 / 0.24e2) ** (-params_a_p)";
  "t55 = lax_cond(r0 <= p_a_dens_threshold, 0, 0.3e1 / 0.20e2 * t6 * t29 * t31 * t51)";
  "t57 = lax_cond(t11, t16, -t18)";
  "t58 = lax_cond(t15, t12, t57)";
  "t59 = 0.1e1 + t58";
  "t61 = t59 ** (0.1e1 / 0.3e1)";
  "t62 = t61 ** 2";
  "t64 = lax_cond(t59 <= p_a_zeta_threshold, t25, t62 * t59)";
  "t67 = r1 ** 2";
  "t68 = r1 ** (0.1e1 / 0.3e1)";
  "t69 = t68 ** 2";
  "t76 = (0.1e1 + t36 * t40 * s2 / t69 / t67 / 0.24e2) ** (-params_a_p)";
  "t80 = lax_cond(r1 <= p_a_dens_threshold, 0, 0.3e1 / 0.20e2 * t6 * t64 * t31 * t76)";
  "res = t55 + t80"]%b.

(* gen_repo/impl/prebuilt/unpol/gga_k_rational_p.py *)
Definition unpol_gga_k_rational_p : list bstr := [
  "t3 = 3 ** (0.1e1 / 0.3e1)";
  "t4 = t3 ** 2";
  "t5 = math.pi ** (0.1e1 / 0.3e1)";
  "t8 = 0.1e1 <= p_a_zeta_threshold";
  "t9 = p_a_zeta_threshold - 0.1e1";
  "t11 = lax_cond(t8, -t9, 0)";
  "t12 = lax_cond(t8, t9, t11)";
  "t13 = 0.1e1 + t12";
  "t15 = p_a_zeta_threshold ** (0.1e1 / 0.3e1)";
  "t16 = t15 ** 2";
  "t18 = t13 ** (0.1e1 / 0.3e1)";
  "t19 = t18 ** 2";
  "t21 = lax_cond(t13 <= p_a_zeta_threshold, t16 * p_a_zeta_threshold, t19 * t13)";
  "t22 = r0 ** (0.1e1 / 0.3e1)";
  "t23 = t22 ** 2";
  "t27 = 6 ** (0.1e1 / 0.3e1)";
  "t29 = math.pi ** 2";
  "t30 = t29 ** (0.1e1 / 0.3e1)";
  "t31 = t30 ** 2";
  "t34 = 2 ** (0.1e1 / 0.3e1)";
  "t35 = t34 ** 2";
  "t36 = r0 ** 2";
  "t44 = (0.1e1 + params_a_C2 / params_a_p * t27 / t31 * s0 * t35 / t23 / t36 / 0.24e2) ** (-params_a_p)";
  "t48 = lax_cond(r0 / 0.2e1 <= p_a_dens_threshold, 0, 0.3e1 / 0.20e2 * t4 * t5 * math.pi * t21 * t23 * t44)";
  "res = 0.2e1 * t48"]%b.

(* gen_repo/impl/prebuilt/pol/gga_k_tflw.py *)
Definition pol_gga_k_tflw : list bstr := [
  "t2 = 3 ** (0.1e1 / 0.3e1)";
  "t3 = t2 ** 2";
  "t4 = math.pi ** (0.1e1 / 0.3e1)";
  "t6 = t3 * t4 * math.pi";
  "t7 = r0 + r1";
  "t8 = 0.1e1 / t7";
  "t11 = 0.2e1 * r0 * t8 <= p_a_zeta_threshold";
  "t12 = p_a_zeta_threshold - 0.1e1";
  "t15 = 0.2e1 * r1 * t8 <= p_a_zeta_threshold";
  "t16 = -t12";
  "t18 = (r0 - r1) * t8";
  "t19 = lax_cond(t15, t16, t18)";
  "t20 = lax_cond(t11, t12, t19)";
  "t21 = 0.1e1 + t20";
  "t23 = p_a_zeta_threshold ** (0.1e1 / 0.3e1)";
  "t24 = t23 ** 2";
  "t25 = t24 * p_a_zeta_threshold";
  "t26 = t21 ** (0.1e1 / 0.3e1)";
  "t27 = t26 ** 2";
  "t29 = lax_cond(t21 <= p_a_zeta_threshold, t25, t27 * t21)";
  "t30 = t7 ** (0.1e1 / 0.3e1)";
  "t31 = t30 ** 2";
  "t34 = r0 ** 2";
  "t35 = r0 ** (0.1e1 / 0.3e1)";
  "t36 = t35 ** 2";
  "t39 = 6 ** (0.1e1 / 0.3e1)";
  "t41 = math.pi ** 2";
  "t42 = t41 ** (0.1e1 / 0.3e1)";
  "t43 = t42 ** 2";
  "t44 = 0.1e1 / t43";
  "t52 = lax_cond(r0 <= p_a_dens_threshold, 0, 0.3e1 / 0.20e2 * t6 * t29 * t31 * (params_a_gamma + 0.5e1 / 0.72e2 * params_a_lambda * s0 / t36 / t34 * t39 * t44))";
  "t54 = lax_cond(t11, t16, -t18)";
  "t55 = lax_cond(t15, t12, t54)";
  "t56 = 0.1e1 + t55";
  "t58 = t56 ** (0.1e1 / 0.3e1)";
  "t59 = t58 ** 2";
  "t61 = lax_cond(t56 <= p_a_zeta_threshold, t25, t59 * t56)";
  "t64 = r1 ** 2";
  "t65 = r1 ** (0.1e1 / 0.3e1)";
  "t66 = t65 ** 2";
  "t77 = lax_cond(r1 <= p_a_dens_threshold, 0, 0.3e1 / 0.20e2 * t6 * t61 * t31 * (params_a_gamma + 0.5e1 / 0.72e2 * params_a_lambda * s2 / t66 / t64 * t39 * t44))";
  "res = t52 + t77"]%b.

(* gen_repo/impl/prebuilt/unpol/gga_k_tflw.py *)
Definition unpol_gga_k_tflw : list bstr := [
  "t3 = 3 ** (0.1e1 / 0.3e1)";
  "t4 = t3 ** 2";
  "t5 = math.pi ** (0.1e1 / 0.3e1)";
  "t8 = 0.1e1 <= p_a_zeta_threshold";
  "t9 = p_a_zeta_threshold - 0.1e1";
  "t11 = lax_cond(t8, -t9, 0)";
  "t12 = lax_cond(t8, t9, t11)";
  "t13 = 0.1e1 + t12";
  "t15 = p_a_zeta_threshold ** (0.1e1 / 0.3e1)";
  "t16 = t15 ** 2";
  "t18 = t13 ** (0.1e1 / 0.3e1)";
  "t19 = t18 ** 2";
  "t21 = lax_cond(t13 <= p_a_zeta_threshold, t16 * p_a_zeta_threshold, t19 * t13)";
  "t22 = r0 ** (0.1e1 / 0.3e1)";
  "t23 = t22 ** 2";
  "t26 = 2 ** (0.1e1 / 0.3e1)";
  "t27 = t26 ** 2";
  "t29 = r0 ** 2";
  "t32 = 6 ** (0.1e1 / 0.3e1)";
  "t34 = math.pi ** 2";
  "t35 = t34 ** (0.1e1 / 0.3e1)";
  "t36 = t35 ** 2";
  "t45 = lax_cond(r0 / 0.2e1 <= p_a_dens_threshold, 0, 0.3e1 / 0.20e2 * t4 * t5 * math.pi * t21 * t23 * (params_a_gamma + 0.5e1 / 0.72e2 * params_a_lambda * s0 * t27 / t23 / t29 * t32 / t36))";
  "res = 0.2e1 * t45"]%b.

(* gen_repo/impl/prebuilt/pol/gga_k_thakkar.py *)
Definition pol_gga_k_thakkar : list bstr := [
  "t2 = 3 ** (0.1e1 / 0.3e1)";
  "t3 = t2 ** 2";
  "t4 = math.pi ** (0.1e1 / 0.3e1)";
  "t6 = t3 * t4 * math.pi";
  "t7 = r0 + r1";
  "t8 = 0.1e1 / t7";
  "t11 = 0.2e1 * r0 * t8 <= p_a_zeta_threshold";
  "t12 = p_a_zeta_threshold - 0.1e1";
  "t15 = 0.2e1 * r1 * t8 <= p_a_zeta_threshold";
  "t16 = -t12";
  "t18 = (r0 - r1) * t8";
  "t19 = lax_cond(t15, t16, t18)";
  "t20 = lax_cond(t11, t12, t19)";
  "t21 = 0.1e1 + t20";
  "t23 = p_a_zeta_threshold ** (0.1e1 / 0.3e1)";
  "t24 = t23 ** 2";
  "t25 = t24 * p_a_zeta_threshold";
  "t26 = t21 ** (0.1e1 / 0.3e1)";
  "t27 = t26 ** 2";
  "t29 = lax_cond(t21 <= p_a_zeta_threshold, t25, t27 * t21)";
  "t30 = t7 ** (0.1e1 / 0.3e1)";
  "t31 = t30 ** 2";
  "t33 = r0 ** 2";
  "t34 = r0 ** (0.1e1 / 0.3e1)";
  "t35 = t34 ** 2";
  "t39 = math.sqrt(s0)";
  "t41 = 0.1e1 / t34 / r0";
  "t42 = t39 * t41";
  "t43 = math.asinh(t42)";
  "t50 = 4 ** (0.1e1 / 0.3e1)";
  "t62 = lax_cond(r0 <= p_a_dens_threshold, 0, 0.3e1 / 0.20e2 * t6 * t29 * t31 * (0.1e1 + 0.55e-2 * s0 / t35 / t33 / (0.1e1 + 0.253e-1 * t42 * t43) - 0.72e-1 * t42 / (0.2e1 * t50 * t39 * t41 + 0.1e1)))";
  "t64 = lax_cond(t11, t16, -t18)";
  "t65 = lax_cond(t15, t12, t64)";
  "t66 = 0.1e1 + t65";
  "t68 = t66 ** (0.1e1 / 0.3e1)";
  "t69 = t68 ** 2";
  "t71 = lax_cond(t66 <= p_a_zeta_threshold, t25, t69 * t66)";
  "t73 = r1 ** 2";
  "t74 = r1 ** (0.1e1 / 0.3e1)";
  "t75 = t74 ** 2";
  "t79 = math.sqrt(s2)";
  "t81 = 0.1e1 / t74 / r1";
  "t82 = t79 * t81";
  "t83 = math.asinh(t82)";
  "t101 = lax_cond(r1 <= p_a_dens_threshold, 0, 0.3e1 / 0.20e2 * t6 * t71 * t31 * (0.1e1 + 0.55e-2 * s2 / t75 / t73 / (0.1e1 + 0.253e-1 * t82 * t83) - 0.72e-1 * t82 / (0.2e1 * t50 * t79 * t81 + 0.1e1)))";
  "res = t62 + t101"]%b.

(* gen_repo/impl/prebuilt/unpol/gga_k_thakkar.py *)
Definition unpol_gga_k_thakkar : list bstr := [
  "t3 = 3 ** (0.1e1 / 0.3e1)";
  "t4 = t3 ** 2";
  "t5 = math.pi ** (0.1e1 / 0.3e1)";
  "t8 = 0.1e1 <= p_a_zeta_threshold";
  "t9 = p_a_zeta_threshold - 0.1e1";
  "t11 = lax_cond(t8, -t9, 0)";
  "t12 = lax_cond(t8, t9, t11)";
  "t13 = 0.1e1 + t12";
  "t15 = p_a_zeta_threshold ** (0.1e1 / 0.3e1)";
  "t16 = t15 ** 2";
  "t18 = t13 ** (0.1e1 / 0.3e1)";
  "t19 = t18 ** 2";
  "t21 = lax_cond(t13 <= p_a_zeta_threshold, t16 * p_a_zeta_threshold, t19 * t13)";
  "t22 = r0 ** (0.1e1 / 0.3e1)";
  "t23 = t22 ** 2";
  "t25 = 2 ** (0.1e1 / 0.3e1)";
  "t26 = t25 ** 2";
  "t28 = r0 ** 2";
  "t31 = math.sqrt(s0)";
  "t32 = t31 * t25";
  "t34 = 0.1e1 / t22 / r0";
  "t36 = math.asinh(t32 * t34)";
  "t45 = 4 ** (0.1e1 / 0.3e1)";
  "t59 = lax_cond(r0 / 0.2e1 <= p_a_dens_threshold, 0, 0.3e1 / 0.20e2 * t4 * t5 * math.pi * t21 * t23 * (0.1e1 + 0.55e-2 * s0 * t26 / t23 / t28 / (0.1e1 + 0.253e-1 * t32 * t34 * t36) - 0.72e-1 * t32 * t34 / (0.2e1 * t45 * t31 * t25 * t34 + 0.1e1)))";
  "res = 0.2e1 * t59"]%b.

(* gen_repo/impl/prebuilt/pol/gga_k_vt84f.py *)
Definition pol_gga_k_vt84f : list bstr := [
  "t2 = 3 ** (0.1e1 / 0.3e1)";
  "t3 = t2 ** 2";
  "t4 = math.pi ** (0.1e1 / 0.3e1)";
  "t6 = t3 * t4 * math.pi";
  "t7 = r0 + r1";
  "t8 = 0.1e1 / t7";
  "t11 = 0.2e1 * r0 * t8 <= p_a_zeta_threshold";
  "t12 = p_a_zeta_threshold - 0.1e1";
  "t15 = 0.2e1 * r1 * t8 <= p_a_zeta_threshold";
  "t16 = -t12";
  "t18 = (r0 - r1) * t8";
  "t19 = lax_cond(t15, t16, t18)";
  "t20 = lax_cond(t11, t12, t19)";
  "t21 = 0.1e1 + t20";
  "t23 = p_a_zeta_threshold ** (0.1e1 / 0.3e1)";
  "t24 = t23 ** 2";
  "t25 = t24 * p_a_zeta_threshold";
  "t26 = t21 ** (0.1e1 / 0.3e1)";
  "t27 = t26 ** 2";
  "t29 = lax_cond(t21 <= p_a_zeta_threshold, t25, t27 * t21)";
  "t30 = t7 ** (0.1e1 / 0.3e1)";
  "t31 = t30 ** 2";
  "t33 = 6 ** (0.1e1 / 0.3e1)";
  "t34 = t33 ** 2";
  "t35 = math.pi ** 2";
  "t36 = t35 ** (0.1e1 / 0.3e1)";
  "t38 = t34 / t36";
  "t39 = math.sqrt(s0)";
  "t40 = r0 ** (0.1e1 / 0.3e1)";
  "t45 = t38 * t39 / t40 / r0 / 0.12e2";
  "t46 = math.sqrt(DBL_EPSILON)";
  "t49 = (-params_a_mu + params_a_alpha + 0.5e1 / 0.3e1) * t33";
  "t50 = t36 ** 2";
  "t51 = 0.1e1 / t50";
  "t53 = r0 ** 2";
  "t54 = t40 ** 2";
  "t61 = params_a_mu ** 2";
  "t63 = (params_a_mu * params_a_alpha + t61 - params_a_alpha) * t34";
  "t65 = 0.1e1 / t36 / t35";
  "t66 = s0 ** 2";
  "t68 = t53 ** 2";
  "t77 = lax_cond(t46 < t45, t45, t46)";
  "t78 = t77 ** 2";
  "t79 = params_a_mu * t78";
  "t81 = math.exp(-params_a_alpha * t78)";
  "t86 = t78 ** 2";
  "t88 = math.exp(-params_a_alpha * t86)";
  "t95 = lax_cond(t45 <= t46, 0.1e1 + t49 * t51 * s0 / t54 / t53 / 0.24e2 + t63 * t65 * t66 / t40 / t68 / r0 / 0.576e3, 0.1e1 - t79 * t81 / (0.1e1 + t79) + (0.1e1 - t88) * (0.1e1 / t78 - 0.1e1) + 0.5e1 / 0.3e1 * t78)";
  "t99 = lax_cond(r0 <= p_a_dens_threshold, 0, 0.3e1 / 0.20e2 * t6 * t29 * t31 * t95)";
  "t101 = lax_cond(t11, t16, -t18)";
  "t102 = lax_cond(t15, t12, t101)";
  "t103 = 0.1e1 + t102";
  "t105 = t103 ** (0.1e1 / 0.3e1)";
  "t106 = t105 ** 2";
  "t108 = lax_cond(t103 <= p_a_zeta_threshold, t25, t106 * t103)";
  "t110 = math.sqrt(s2)";
  "t111 = r1 ** (0.1e1 / 0.3e1)";
  "t116 = t38 * t110 / t111 / r1 / 0.12e2";
  "t119 = r1 ** 2";
  "t120 = t111 ** 2";
  "t126 = s2 ** 2";
  "t128 = t119 ** 2";
  "t137 = lax_cond(t46 < t116, t116, t46)";
  "t138 = t137 ** 2";
  "t139 = params_a_mu * t138";
  "t141 = math.exp(-params_a_alpha * t138)";
  "t146 = t138 ** 2";
  "t148 = math.exp(-params_a_alpha * t146)";
  "t155 = lax_cond(t116 <= t46, 0.1e1 + t49 * t51 * s2 / t120 / t119 / 0.24e2 + t63 * t65 * t126 / t111 / t128 / r1 / 0.576e3, 0.1e1 - t139 * t141 / (0.1e1 + t139) + (0.1e1 - t148) * (0.1e1 / t138 - 0.1e1) + 0.5e1 / 0.3e1 * t138)";
  "t159 = lax_cond(r1 <= p_a_dens_threshold, 0, 0.3e1 / 0.20e2 * t6 * t108 * t31 * t155)";
  "res = t99 + t159"]%b.

(* gen_repo/impl/prebuilt/unpol/gga_k_vt84f.py *)
Definition unpol_gga_k_vt84f : list bstr := [
  "t3 = 3 ** (0.1e1 / 0.3e1)";
  "t4 = t3 ** 2";
  "t5 = math.pi ** (0.1e1 / 0.3e1)";
  "t8 = 0.1e1 <= p_a_zeta_threshold";
  "t9 = p_a_zeta_threshold - 0.1e1";
  "t11 = lax_cond(t8, -t9, 0)";
  "t12 = lax_cond(t8, t9, t11)";
  "t13 = 0.1e1 + t12";
  "t15 = p_a_zeta_threshold ** (0.1e1 / 0.3e1)";
  "t16 = t15 ** 2";
  "t18 = t13 ** (0.1e1 / 0.3e1)";
  "t19 = t18 ** 2";
  "t21 = lax_cond(t13 <= p_a_zeta_threshold, t16 * p_a_zeta_threshold, t19 * t13)";
  "t22 = r0 ** (0.1e1 / 0.3e1)";
  "t23 = t22 ** 2";
  "t25 = 6 ** (0.1e1 / 0.3e1)";
  "t26 = t25 ** 2";
  "t27 = math.pi ** 2";
  "t28 = t27 ** (0.1e1 / 0.3e1)";
  "t31 = math.sqrt(s0)";
  "t32 = 2 ** (0.1e1 / 0.3e1)";
  "t38 = t26 / t28 * t31 * t32 / t22 / r0 / 0.12e2";
  "t39 = math.sqrt(DBL_EPSILON)";
  "t43 = t28 ** 2";
  "t46 = t32 ** 2";
  "t48 = r0 ** 2";
  "t55 = params_a_mu ** 2";
  "t61 = s0 ** 2";
  "t63 = t48 ** 2";
  "t72 = lax_cond(t39 < t38, t38, t39)";
  "t73 = t72 ** 2";
  "t74 = params_a_mu * t73";
  "t76 = math.exp(-params_a_alpha * t73)";
  "t81 = t73 ** 2";
  "t83 = math.exp(-params_a_alpha * t81)";
  "t90 = lax_cond(t38 <= t39, 0.1e1 + (-params_a_mu + params_a_alpha + 0.5e1 / 0.3e1) * t25 / t43 * s0 * t46 / t23 / t48 / 0.24e2 + (params_a_mu * params_a_alpha + t55 - params_a_alpha) * t26 / t28 / t27 * t61 * t32 / t22 / t63 / r0 / 0.288e3, 0.1e1 - t74 * t76 / (0.1e1 + t74) + (0.1e1 - t83) * (0.1e1 / t73 - 0.1e1) + 0.5e1 / 0.3e1 * t73)";
  "t94 = lax_cond(r0 / 0.2e1 <= p_a_dens_threshold, 0, 0.3e1 / 0.20e2 * t4 * t5 * math.pi * t21 * t23 * t90)";
  "res = 0.2e1 * t94"]%b.

(* gen_repo/impl/prebuilt/pol/gga_x_2d_b86.py *)
Definition pol_gga_x_2d_b86 : list bstr := [
  "t2 = math.sqrt(math.pi)";
  "t3 = 0.1e1 / t2";
  "t4 = r0 + r1";
  "t5 = 0.1e1 / t4";
  "t8 = 0.2e1 * r0 * t5 <= p_a_zeta_threshold";
  "t9 = p_a_zeta_threshold - 0.1e1";
  "t12 = 0.2e1 * r1 * t5 <= p_a_zeta_threshold";
  "t13 = -t9";
  "t15 = (r0 - r1) * t5";
  "t16 = lax_cond(t12, t13, t15)";
  "t17 = lax_cond(t8, t9, t16)";
  "t18 = 0.1e1 + t17";
  "t20 = math.sqrt(p_a_zeta_threshold)";
  "t21 = t20 * p_a_zeta_threshold";
  "t22 = math.sqrt(t18)";
  "t24 = lax_cond(t18 <= p_a_zeta_threshold, t21, t22 * t18)";
  "t26 = math.sqrt(0.2e1)";
  "t28 = math.sqrt(t4)";
  "t29 = r0 ** 2";
  "t32 = s0 / t29 / r0";
  "t42 = lax_cond(r0 <= p_a_dens_threshold, 0, -0.2e1 / 0.3e1 * t3 * t24 * t26 * t28 * (0.1e1 + 0.2105e-2 * t32) / (0.1e1 + 0.119e-3 * t32))";
  "t44 = lax_cond(t8, t13, -t15)";
  "t45 = lax_cond(t12, t9, t44)";
  "t46 = 0.1e1 + t45";
  "t48 = math.sqrt(t46)";
  "t50 = lax_cond(t46 <= p_a_zeta_threshold, t21, t48 * t46)";
  "t53 = r1 ** 2";
  "t56 = s2 / t53 / r1";
  "t66 = lax_cond(r1 <= p_a_dens_threshold, 0, -0.2e1 / 0.3e1 * t3 * t50 * t26 * t28 * (0.1e1 + 0.2105e-2 * t56) / (0.1e1 + 0.119e-3 * t56))";
  "res = t42 + t66"]%b.

(* gen_repo/impl/prebuilt/unpol/gga_x_2d_b86.py *)
Definition unpol_gga_x_2d_b86 : list bstr := [
  "t3 = math.sqrt(math.pi)";
  "t5 = 0.1e1 <= p_a_zeta_threshold";
  "t6 = p_a_zeta_threshold - 0.1e1";
  "t8 = lax_cond(t5, -t6, 0)";
  "t9 = lax_cond(t5, t6, t8)";
  "t10 = 0.1e1 + t9";
  "t12 = math.sqrt(p_a_zeta_threshold)";
  "t14 = math.sqrt(t10)";
  "t16 = lax_cond(t10 <= p_a_zeta_threshold, t12 * p_a_zeta_threshold, t14 * t10)";
  "t18 = math.sqrt(0.2e1)";
  "t20 = math.sqrt(r0)";
  "t21 = r0 ** 2";
  "t24 = s0 / t21 / r0";
  "t34 = lax_cond(r0 / 0.2e1 <= p_a_dens_threshold, 0, -0.2e1 / 0.3e1 / t3 * t16 * t18 * t20 * (0.1e1 + 0.4210e-2 * t24) / (0.1e1 + 0.238e-3 * t24))";
  "res = 0.2e1 * t34"]%b.

(* gen_repo/impl/prebuilt/pol/gga_x_2d_b86_mgc.py *)
Definition pol_gga_x_2d_b86_mgc : list bstr := [
  "t2 = math.sqrt(math.pi)";
  "t3 = 0.1e1 / t2";
  "t4 = r0 + r1";
  "t5 = 0.1e1 / t4";
  "t8 = 0.2e1 * r0 * t5 <= p_a_zeta_threshold";
  "t9 = p_a_zeta_threshold - 0.1e1";
  "t12 = 0.2e1 * r1 * t5 <= p_a_zeta_threshold";
  "t13 = -t9";
  "t15 = (r0 - r1) * t5";
  "t16 = lax_cond(t12, t13, t15)";
  "t17 = lax_cond(t8, t9, t16)";
  "t18 = 0.1e1 + t17";
  "t20 = math.sqrt(p_a_zeta_threshold)";
  "t21 = t20 * p_a_zeta_threshold";
  "t22 = math.sqrt(t18)";
  "t24 = lax_cond(t18 <= p_a_zeta_threshold, t21, t22 * t18)";
  "t26 = math.sqrt(0.2e1)";
  "t27 = math.sqrt(t4)";
  "t28 = t26 * t27";
  "t30 = r0 ** 2";
  "t32 = 0.1e1 / t30 / r0";
  "t36 = (0.1e1 + 0.8323e-2 * s0 * t32) ** (0.1e1 / 0.4e1)";
  "t37 = t36 ** 2";
  "t47 = lax_cond(r0 <= p_a_dens_threshold, 0, -0.2e1 / 0.3e1 * t3 * t24 * t28 * (0.1e1 + 0.12438750000000000000e-2 * t2 * s0 * t32 / t37 / t36))";
  "t49 = lax_cond(t8, t13, -t15)";
  "t50 = lax_cond(t12, t9, t49)";
  "t51 = 0.1e1 + t50";
  "t53 = math.sqrt(t51)";
  "t55 = lax_cond(t51 <= p_a_zeta_threshold, t21, t53 * t51)";
  "t58 = r1 ** 2";
  "t60 = 0.1e1 / t58 / r1";
  "t64 = (0.1e1 + 0.8323e-2 * s2 * t60) ** (0.1e1 / 0.4e1)";
  "t65 = t64 ** 2";
  "t75 = lax_cond(r1 <= p_a_dens_threshold, 0, -0.2e1 / 0.3e1 * t3 * t55 * t28 * (0.1e1 + 0.12438750000000000000e-2 * t2 * s2 * t60 / t65 / t64))";
  "res = t47 + t75"]%b.

(* gen_repo/impl/prebuilt/unpol/gga_x_2d_b86_mgc.py *)
Definition unpol_gga_x_2d_b86_mgc : list bstr := [
  "t3 = math.sqrt(math.pi)";
  "t5 = 0.1e1 <= p_a_zeta_threshold";
  "t6 = p_a_zeta_threshold - 0.1e1";
  "t8 = lax_cond(t5, -t6, 0)";
  "t9 = lax_cond(t5, t6, t8)";
  "t10 = 0.1e1 + t9";
  "t12 = math.sqrt(p_a_zeta_threshold)";
  "t14 = math.sqrt(t10)";
  "t16 = lax_cond(t10 <= p_a_zeta_threshold, t12 * p_a_zeta_threshold, t14 * t10)";
  "t18 = math.sqrt(0.2e1)";
  "t19 = math.sqrt(r0)";
  "t22 = r0 ** 2";
  "t24 = 0.1e1 / t22 / r0";
  "t28 = (0.1e1 + 0.16646e-1 * s0 * t24) ** (0.1e1 / 0.4e1)";
  "t29 = t28 ** 2";
  "t39 = lax_cond(r0 / 0.2e1 <= p_a_dens_threshold, 0, -0.2e1 / 0.3e1 / t3 * t16 * t18 * t19 * (0.1e1 + 0.24877500000000000000e-2 * t3 * s0 * t24 / t29 / t28))";
  "res = 0.2e1 * t39"]%b.

(* gen_repo/impl/prebuilt/pol/gga_x_2d_b88.py *)
Definition pol_gga_x_2d_b88 : list bstr := [
  "t2 = math.sqrt(math.pi)";
  "t3 = 0.1e1 / t2";
  "t4 = r0 + r1";
  "t5 = 0.1e1 / t4";
  "t8 = 0.2e1 * r0 * t5 <= p_a_zeta_threshold";
  "t9 = p_a_zeta_threshold - 0.1e1";
  "t12 = 0.2e1 * r1 * t5 <= p_a_zeta_threshold";
  "t13 = -t9";
  "t15 = (r0 - r1) * t5";
  "t16 = lax_cond(t12, t13, t15)";
  "t17 = lax_cond(t8, t9, t16)";
  "t18 = 0.1e1 + t17";
  "t20 = math.sqrt(p_a_zeta_threshold)";
  "t21 = t20 * p_a_zeta_threshold";
  "t22 = math.sqrt(t18)";
  "t24 = lax_cond(t18 <= p_a_zeta_threshold, t21, t22 * t18)";
  "t26 = math.sqrt(0.2e1)";
  "t27 = math.sqrt(t4)";
  "t28 = t26 * t27";
  "t30 = r0 ** 2";
  "t33 = math.sqrt(s0)";
  "t34 = math.sqrt(r0)";
  "t37 = t33 / t34 / r0";
  "t38 = math.asinh(t37)";
  "t50 = lax_cond(r0 <= p_a_dens_threshold, 0, -0.2e1 / 0.3e1 * t3 * t24 * t28 * (0.1e1 + 0.26250000000000000000e-2 * t2 * s0 / t30 / r0 / (0.1e1 + 0.56e-1 * t37 * t38)))";
  "t52 = lax_cond(t8, t13, -t15)";
  "t53 = lax_cond(t12, t9, t52)";
  "t54 = 0.1e1 + t53";
  "t56 = math.sqrt(t54)";
  "t58 = lax_cond(t54 <= p_a_zeta_threshold, t21, t56 * t54)";
  "t61 = r1 ** 2";
  "t64 = math.sqrt(s2)";
  "t65 = math.sqrt(r1)";
  "t68 = t64 / t65 / r1";
  "t69 = math.asinh(t68)";
  "t81 = lax_cond(r1 <= p_a_dens_threshold, 0, -0.2e1 / 0.3e1 * t3 * t58 * t28 * (0.1e1 + 0.26250000000000000000e-2 * t2 * s2 / t61 / r1 / (0.1e1 + 0.56e-1 * t68 * t69)))";
  "res = t50 + t81"]%b.

(* gen_repo/impl/prebuilt/unpol/gga_x_2d_b88.py *)
Definition unpol_gga_x_2d_b88 : list bstr := [
  "t3 = math.sqrt(math.pi)";
  "t5 = 0.1e1 <= p_a_zeta_threshold";
  "t6 = p_a_zeta_threshold - 0.1e1";
  "t8 = lax_cond(t5, -t6, 0)";
  "t9 = lax_cond(t5, t6, t8)";
  "t10 = 0.1e1 + t9";
  "t12 = math.sqrt(p_a_zeta_threshold)";
  "t14 = math.sqrt(t10)";
  "t16 = lax_cond(t10 <= p_a_zeta_threshold, t12 * p_a_zeta_threshold, t14 * t10)";
  "t18 = math.sqrt(0.2e1)";
  "t19 = math.sqrt(r0)";
  "t22 = r0 ** 2";
  "t25 = math.sqrt(s0)";
  "t26 = t25 * t18";
  "t28 = 0.1e1 / t19 / r0";
  "t30 = math.asinh(t26 * t28)";
  "t43 = lax_cond(r0 / 0.2e1 <= p_a_dens_threshold, 0, -0.2e1 / 0.3e1 / t3 * t16 * t18 * t19 * (0.1e1 + 0.52500000000000000000e-2 * t3 * s0 / t22 / r0 / (0.1e1 + 0.56e-1 * t26 * t28 * t30)))";
  "res = 0.2e1 * t43"]%b.

(* gen_repo/impl/prebuilt/pol/gga_x_2d_pbe.py *)
Definition pol_gga_x_2d_pbe : list bstr := [
  "t2 = math.sqrt(math.pi)";
  "t3 = 0.1e1 / t2";
  "t4 = r0 + r1";
  "t5 = 0.1e1 / t4";
  "t8 = 0.2e1 * r0 * t5 <= p_a_zeta_threshold";
  "t9 = p_a_zeta_threshold - 0.1e1";
  "t12 = 0.2e1 * r1 * t5 <= p_a_zeta_threshold";
  "t13 = -t9";
  "t15 = (r0 - r1) * t5";
  "t16 = lax_cond(t12, t13, t15)";
  "t17 = lax_cond(t8, t9, t16)";
  "t18 = 0.1e1 + t17";
  "t20 = math.sqrt(p_a_zeta_threshold)";
  "t21 = t20 * p_a_zeta_threshold";
  "t22 = math.sqrt(t18)";
  "t24 = lax_cond(t18 <= p_a_zeta_threshold, t21, t22 * t18)";
  "t26 = math.sqrt(0.2e1)";
  "t27 = math.sqrt(t4)";
  "t28 = t26 * t27";
  "t29 = 0.1e1 / math.pi";
  "t31 = r0 ** 2";
  "t43 = lax_cond(r0 <= p_a_dens_threshold, 0, -0.2e1 / 0.3e1 * t3 * t24 * t28 * (0.14604e1 - 0.21196816e0 / (0.4604e0 + 0.22159179687500000000e-1 * t29 * s0 / t31 / r0)))";
  "t45 = lax_cond(t8, t13, -t15)";
  "t46 = lax_cond(t12, t9, t45)";
  "t47 = 0.1e1 + t46";
  "t49 = math.sqrt(t47)";
  "t51 = lax_cond(t47 <= p_a_zeta_threshold, t21, t49 * t47)";
  "t54 = r1 ** 2";
  "t66 = lax_cond(r1 <= p_a_dens_threshold, 0, -0.2e1 / 0.3e1 * t3 * t51 * t28 * (0.14604e1 - 0.21196816e0 / (0.4604e0 + 0.22159179687500000000e-1 * t29 * s2 / t54 / r1)))";
  "res = t43 + t66"]%b.

(* gen_repo/impl/prebuilt/unpol/gga_x_2d_pbe.py *)
Definition unpol_gga_x_2d_pbe : list bstr := [
  "t3 = math.sqrt(math.pi)";
  "t5 = 0.1e1 <= p_a_zeta_threshold";
  "t6 = p_a_zeta_threshold - 0.1e1";
  "t8 = lax_cond(t5, -t6, 0)";
  "t9 = lax_cond(t5, t6, t8)";
  "t10 = 0.1e1 + t9";
  "t12 = math.sqrt(p_a_zeta_threshold)";
  "t14 = math.sqrt(t10)";
  "t16 = lax_cond(t10 <= p_a_zeta_threshold, t12 * p_a_zeta_threshold, t14 * t10)";
  "t18 = math.sqrt(0.2e1)";
  "t19 = math.sqrt(r0)";
  "t23 = r0 ** 2";
  "t35 = lax_cond(r0 / 0.2e1 <= p_a_dens_threshold, 0, -0.2e1 / 0.3e1 / t3 * t16 * t18 * t19 * (0.14604e1 - 0.21196816e0 / (0.4604e0 + 0.44318359375000000000e-1 / math.pi * s0 / t23 / r0)))";
  "res = 0.2e1 * t35"]%b.

(* gen_repo/impl/prebuilt/pol/gga_x_airy.py *)
Definition pol_gga_x_airy : list bstr := [
  "t2 = 3 ** (0.1e1 / 0.3e1)";
  "t3 = math.pi ** (0.1e1 / 0.3e1)";
  "t5 = t2 / t3";
  "t6 = r0 + r1";
  "t7 = 0.1e1 / t6";
  "t10 = 0.2e1 * r0 * t7 <= p_a_zeta_threshold";
  "t11 = p_a_zeta_threshold - 0.1e1";
  "t14 = 0.2e1 * r1 * t7 <= p_a_zeta_threshold";
  "t15 = -t11";
  "t17 = (r0 - r1) * t7";
  "t18 = lax_cond(t14, t15, t17)";
  "t19 = lax_cond(t10, t11, t18)";
  "t20 = 0.1e1 + t19";
  "t22 = p_a_zeta_threshold ** (0.1e1 / 0.3e1)";
  "t23 = t22 * p_a_zeta_threshold";
  "t24 = t20 ** (0.1e1 / 0.3e1)";
  "t26 = lax_cond(t20 <= p_a_zeta_threshold, t23, t24 * t20)";
  "t27 = t6 ** (0.1e1 / 0.3e1)";
  "t29 = 6 ** (0.1e1 / 0.3e1)";
  "t30 = t29 ** 2";
  "t31 = math.pi ** 2";
  "t32 = t31 ** (0.1e1 / 0.3e1)";
  "t34 = t30 / t32";
  "t35 = math.sqrt(s0)";
  "t36 = r0 ** (0.1e1 / 0.3e1)";
  "t40 = t34 * t35 / t36 / r0";
  "t41 = t40 ** 0.2626712e1";
  "t44 = (0.1e1 + 0.13471619689594796103e-3 * t41) ** (-0.657946e0)";
  "t47 = t40 ** 0.3217063e1";
  "t49 = t40 ** 0.3223476e1";
  "t52 = t40 ** 0.3473804e1";
  "t61 = lax_cond(r0 <= p_a_dens_threshold, 0, -0.3e1 / 0.8e1 * t5 * t26 * t27 * (0.60146019220211109872e-4 * t41 * t44 + (0.1e1 - 0.45212413010769857073e-1 * t47 + 0.45402221956620378581e-1 * t49) / (0.1e1 + 0.47702180224903349918e-3 * t52)))";
  "t63 = lax_cond(t10, t15, -t17)";
  "t64 = lax_cond(t14, t11, t63)";
  "t65 = 0.1e1 + t64";
  "t67 = t65 ** (0.1e1 / 0.3e1)";
  "t69 = lax_cond(t65 <= p_a_zeta_threshold, t23, t67 * t65)";
  "t71 = math.sqrt(s2)";
  "t72 = r1 ** (0.1e1 / 0.3e1)";
  "t76 = t34 * t71 / t72 / r1";
  "t77 = t76 ** 0.2626712e1";
  "t80 = (0.1e1 + 0.13471619689594796103e-3 * t77) ** (-0.657946e0)";
  "t83 = t76 ** 0.3217063e1";
  "t85 = t76 ** 0.3223476e1";
  "t88 = t76 ** 0.3473804e1";
  "t97 = lax_cond(r1 <= p_a_dens_threshold, 0, -0.3e1 / 0.8e1 * t5 * t69 * t27 * (0.60146019220211109872e-4 * t77 * t80 + (0.1e1 - 0.45212413010769857073e-1 * t83 + 0.45402221956620378581e-1 * t85) / (0.1e1 + 0.47702180224903349918e-3 * t88)))";
  "res = t61 + t97"]%b.

(* gen_repo/impl/prebuilt/unpol/gga_x_airy.py *)
Definition unpol_gga_x_airy : list bstr := [
  "t3 = 3 ** (0.1e1 / 0.3e1)";
  "t4 = math.pi ** (0.1e1 / 0.3e1)";
  "t7 = 0.1e1 <= p_a_zeta_threshold";
  "t8 = p_a_zeta_threshold - 0.1e1";
  "t10 = lax_cond(t7, -t8, 0)";
  "t11 = lax_cond(t7, t8, t10)";
  "t12 = 0.1e1 + t11";
  "t14 = p_a_zeta_threshold ** (0.1e1 / 0.3e1)";
  "t16 = t12 ** (0.1e1 / 0.3e1)";
  "t18 = lax_cond(t12 <= p_a_zeta_threshold, t14 * p_a_zeta_threshold, t16 * t12)";
  "t19 = r0 ** (0.1e1 / 0.3e1)";
  "t21 = 6 ** (0.1e1 / 0.3e1)";
  "t22 = t21 ** 2";
  "t23 = math.pi ** 2";
  "t24 = t23 ** (0.1e1 / 0.3e1)";
  "t27 = math.sqrt(s0)";
  "t28 = 2 ** (0.1e1 / 0.3e1)";
  "t33 = t22 / t24 * t27 * t28 / t19 / r0";
  "t34 = t33 ** 0.2626712e1";
  "t37 = (0.1e1 + 0.13471619689594796103e-3 * t34) ** (-0.657946e0)";
  "t40 = t33 ** 0.3217063e1";
  "t42 = t33 ** 0.3223476e1";
  "t45 = t33 ** 0.3473804e1";
  "t54 = lax_cond(r0 / 0.2e1 <= p_a_dens_threshold, 0, -0.3e1 / 0.8e1 * t3 / t4 * t18 * t19 * (0.60146019220211109872e-4 * t34 * t37 + (0.1e1 - 0.45212413010769857073e-1 * t40 + 0.45402221956620378581e-1 * t42) / (0.1e1 + 0.47702180224903349918e-3 * t45)))";
  "res = 0.2e1 * t54"]%b.

(* gen_repo/impl/prebuilt/pol/gga_x_ak13.py *)
Definition pol_gga_x_ak13 : list bstr := [
  "t2 = 3 ** (0.1e1 / 0.3e1)";
  "t3 = math.pi ** (0.1e1 / 0.3e1)";
  "t5 = t2 / t3";
  "t6 = r0 + r1";
  "t7 = 0.1e1 / t6";
  "t10 = 0.2e1 * r0 * t7 <= p_a_zeta_threshold";
  "t11 = p_a_zeta_threshold - 0.1e1";
  "t14 = 0.2e1 * r1 * t7 <= p_a_zeta_threshold";
  "t15 = -t11";
  "t17 = (r0 - r1) * t7";
  "t18 = lax_cond(t14, t15, t17)";
  "t19 = lax_cond(t10, t11, t18)";
  "t20 = 0.1e1 + t19";
  "t22 = p_a_zeta_threshold ** (0.1e1 / 0.3e1)";
  "t23 = t22 * p_a_zeta_threshold";
  "t24 = t20 ** (0.1e1 / 0.3e1)";
  "t26 = lax_cond(t20 <= p_a_zeta_threshold, t23, t24 * t20)";
  "t27 = t6 ** (0.1e1 / 0.3e1)";
  "t29 = 6 ** (0.1e1 / 0.3e1)";
  "t30 = t29 ** 2";
  "t32 = math.pi ** 2";
  "t33 = t32 ** (0.1e1 / 0.3e1)";
  "t34 = 0.1e1 / t33";
  "t35 = params_a_B1 * t30 * t34";
  "t36 = math.sqrt(s0)";
  "t37 = r0 ** (0.1e1 / 0.3e1)";
  "t40 = t36 / t37 / r0";
  "t41 = t30 * t34";
  "t45 = math.log(0.1e1 + t41 * t40 / 0.12e2)";
  "t50 = params_a_B2 * t30 * t34";
  "t52 = math.log(0.1e1 + t45)";
  "t60 = lax_cond(r0 <= p_a_dens_threshold, 0, -0.3e1 / 0.8e1 * t5 * t26 * t27 * (0.1e1 + t35 * t40 * t45 / 0.12e2 + t50 * t40 * t52 / 0.12e2))";
  "t62 = lax_cond(t10, t15, -t17)";
  "t63 = lax_cond(t14, t11, t62)";
  "t64 = 0.1e1 + t63";
  "t66 = t64 ** (0.1e1 / 0.3e1)";
  "t68 = lax_cond(t64 <= p_a_zeta_threshold, t23, t66 * t64)";
  "t70 = math.sqrt(s2)";
  "t71 = r1 ** (0.1e1 / 0.3e1)";
  "t74 = t70 / t71 / r1";
  "t78 = math.log(0.1e1 + t41 * t74 / 0.12e2)";
  "t83 = math.log(0.1e1 + t78)";
  "t91 = lax_cond(r1 <= p_a_dens_threshold, 0, -0.3e1 / 0.8e1 * t5 * t68 * t27 * (0.1e1 + t35 * t74 * t78 / 0.12e2 + t50 * t74 * t83 / 0.12e2))";
  "res = t60 + t91"]%b.

(* gen_repo/impl/prebuilt/unpol/gga_x_ak13.py *)
Definition unpol_gga_x_ak13 : list bstr := [
  "t3 = 3 ** (0.1e1 / 0.3e1)";
  "t4 = math.pi ** (0.1e1 / 0.3e1)";
  "t7 = 0.1e1 <= p_a_zeta_threshold";
  "t8 = p_a_zeta_threshold - 0.1e1";
  "t10 = lax_cond(t7, -t8, 0)";
  "t11 = lax_cond(t7, t8, t10)";
  "t12 = 0.1e1 + t11";
  "t14 = p_a_zeta_threshold ** (0.1e1 / 0.3e1)";
  "t16 = t12 ** (0.1e1 / 0.3e1)";
  "t18 = lax_cond(t12 <= p_a_zeta_threshold, t14 * p_a_zeta_threshold, t16 * t12)";
  "t19 = r0 ** (0.1e1 / 0.3e1)";
  "t21 = 6 ** (0.1e1 / 0.3e1)";
  "t22 = t21 ** 2";
  "t24 = math.pi ** 2";
  "t25 = t24 ** (0.1e1 / 0.3e1)";
  "t26 = 0.1e1 / t25";
  "t28 = math.sqrt(s0)";
  "t29 = 2 ** (0.1e1 / 0.3e1)";
  "t30 = t28 * t29";
  "t32 = 0.1e1 / t19 / r0";
  "t38 = math.log(0.1e1 + t22 * t26 * t30 * t32 / 0.12e2)";
  "t46 = math.log(0.1e1 + t38)";
  "t55 = lax_cond(r0 / 0.2e1 <= p_a_dens_threshold, 0, -0.3e1 / 0.8e1 * t3 / t4 * t18 * t19 * (0.1e1 + params_a_B1 * t22 * t26 * t30 * t32 * t38 / 0.12e2 + params_a_B2 * t22 * t26 * t30 * t32 * t46 / 0.12e2))";
  "res = 0.2e1 * t55"]%b.

(* gen_repo/impl/prebuilt/pol/gga_x_am05.py *)
Definition pol_gga_x_am05 : list bstr := [
  "t2 = 3 ** (0.1e1 / 0.3e1)";
  "t3 = math.pi ** (0.1e1 / 0.3e1)";
  "t5 = t2 / t3";
  "t6 = r0 + r1";
  "t7 = 0.1e1 / t6";
  "t10 = 0.2e1 * r0 * t7 <= p_a_zeta_threshold";
  "t11 = p_a_zeta_threshold - 0.1e1";
  "t14 = 0.2e1 * r1 * t7 <= p_a_zeta_threshold";
  "t15 = -t11";
  "t17 = (r0 - r1) * t7";
  "t18 = lax_cond(t14, t15, t17)";
  "t19 = lax_cond(t10, t11, t18)";
  "t20 = 0.1e1 + t19";
  "t22 = p_a_zeta_threshold ** (0.1e1 / 0.3e1)";
  "t23 = t22 * p_a_zeta_threshold";
  "t24 = t20 ** (0.1e1 / 0.3e1)";
  "t26 = lax_cond(t20 <= p_a_zeta_threshold, t23, t24 * t20)";
  "t27 = t6 ** (0.1e1 / 0.3e1)";
  "t29 = 6 ** (0.1e1 / 0.3e1)";
  "t30 = params_a_alpha * t29";
  "t31 = math.pi ** 2";
  "t32 = t31 ** (0.1e1 / 0.3e1)";
  "t33 = t32 ** 2";
  "t34 = 0.1e1 / t33";
  "t35 = t30 * t34";
  "t36 = r0 ** 2";
  "t37 = r0 ** (0.1e1 / 0.3e1)";
  "t38 = t37 ** 2";
  "t40 = 0.1e1 / t38 / t36";
  "t42 = t34 * s0";
  "t43 = t42 * t40";
  "t47 = 0.1e1 / (0.1e1 + t30 * t43 / 0.24e2)";
  "t53 = params_a_c * t29";
  "t57 = t29 ** 2";
  "t58 = params_a_c * t57";
  "t59 = 0.1e1 / t32";
  "t60 = math.sqrt(s0)";
  "t63 = 0.1e1 / t37 / r0";
  "t67 = t2 ** 2";
  "t68 = 0.1e1 / math.pi * t67";
  "t69 = 2 ** (0.1e1 / 0.3e1)";
  "t70 = math.sqrt(0.12e2)";
  "t71 = t57 * t59";
  "t73 = t71 * t60 * t63";
  "t74 = math.sqrt(t73)";
  "t77 = math.sqrt(0.6e1)";
  "t80 = scipy.special.lambertw(t70 * t74 * t73 * t77 / 0.1728e4)";
  "t81 = t80 ** (0.1e1 / 0.3e1)";
  "t82 = t81 ** 2";
  "t84 = t69 ** 2";
  "t85 = t2 * t84";
  "t90 = (0.2823705740248932030511071641312341561894e2 + 0.3e1 / 0.4e1 * t85 * t81 * t80) ** (0.1e1 / 0.4e1)";
  "t105 = lax_cond(r0 <= p_a_dens_threshold, 0, -0.3e1 / 0.8e1 * t5 * t26 * t27 * (0.1e1 - t35 * s0 * t40 * t47 / 0.24e2 + t30 * t42 * t40 * t47 * (0.1e1 + t53 * t43 / 0.24e2) / (0.1e1 + t58 * t59 * t60 * t63 * t68 * t69 * t82 * t90 / 0.8e1) / 0.24e2))";
  "t107 = lax_cond(t10, t15, -t17)";
  "t108 = lax_cond(t14, t11, t107)";
  "t109 = 0.1e1 + t108";
  "t111 = t109 ** (0.1e1 / 0.3e1)";
  "t113 = lax_cond(t109 <= p_a_zeta_threshold, t23, t111 * t109)";
  "t115 = r1 ** 2";
  "t116 = r1 ** (0.1e1 / 0.3e1)";
  "t117 = t116 ** 2";
  "t119 = 0.1e1 / t117 / t115";
  "t121 = t34 * s2";
  "t122 = t121 * t119";
  "t126 = 0.1e1 / (0.1e1 + t30 * t122 / 0.24e2)";
  "t135 = math.sqrt(s2)";
  "t138 = 0.1e1 / t116 / r1";
  "t142 = t71 * t135 * t138";
  "t143 = math.sqrt(t142)";
  "t148 = scipy.special.lambertw(t70 * t143 * t142 * t77 / 0.1728e4)";
  "t149 = t148 ** (0.1e1 / 0.3e1)";
  "t150 = t149 ** 2";
  "t156 = (0.2823705740248932030511071641312341561894e2 + 0.3e1 / 0.4e1 * t85 * t149 * t148) ** (0.1e1 / 0.4e1)";
  "t171 = lax_cond(r1 <= p_a_dens_threshold, 0, -0.3e1 / 0.8e1 * t5 * t113 * t27 * (0.1e1 - t35 * s2 * t119 * t126 / 0.24e2 + t30 * t121 * t119 * t126 * (0.1e1 + t53 * t122 / 0.24e2) / (0.1e1 + t58 * t59 * t135 * t138 * t68 * t69 * t150 * t156 / 0.8e1) / 0.24e2))";
  "res = t105 + t171"]%b.

(* gen_repo/impl/prebuilt/unpol/gga_x_am05.py *)
Definition unpol_gga_x_am05 : list bstr := [
  "t3 = 3 ** (0.1e1 / 0.3e1)";
  "t4 = math.pi ** (0.1e1 / 0.3e1)";
  "t7 = 0.1e1 <= p_a_zeta_threshold";
  "t8 = p_a_zeta_threshold - 0.1e1";
  "t10 = lax_cond(t7, -t8, 0)";
  "t11 = lax_cond(t7, t8, t10)";
  "t12 = 0.1e1 + t11";
  "t14 = p_a_zeta_threshold ** (0.1e1 / 0.3e1)";
  "t16 = t12 ** (0.1e1 / 0.3e1)";
  "t18 = lax_cond(t12 <= p_a_zeta_threshold, t14 * p_a_zeta_threshold, t16 * t12)";
  "t19 = r0 ** (0.1e1 / 0.3e1)";
  "t21 = 6 ** (0.1e1 / 0.3e1)";
  "t22 = params_a_alpha * t21";
  "t23 = math.pi ** 2";
  "t24 = t23 ** (0.1e1 / 0.3e1)";
  "t25 = t24 ** 2";
  "t26 = 0.1e1 / t25";
  "t27 = t22 * t26";
  "t28 = 2 ** (0.1e1 / 0.3e1)";
  "t29 = t28 ** 2";
  "t30 = s0 * t29";
  "t31 = r0 ** 2";
  "t32 = t19 ** 2";
  "t34 = 0.1e1 / t32 / t31";
  "t35 = t30 * t34";
  "t39 = 0.1e1 / (0.1e1 + t27 * t35 / 0.24e2)";
  "t53 = t21 ** 2";
  "t55 = 0.1e1 / t24";
  "t56 = math.sqrt(s0)";
  "t61 = 0.1e1 / t19 / r0";
  "t64 = t3 ** 2";
  "t65 = math.sqrt(0.12e2)";
  "t69 = t53 * t55 * t56 * t28 * t61";
  "t70 = math.sqrt(t69)";
  "t73 = math.sqrt(0.6e1)";
  "t76 = scipy.special.lambertw(t65 * t70 * t69 * t73 / 0.1728e4)";
  "t77 = t76 ** (0.1e1 / 0.3e1)";
  "t78 = t77 ** 2";
  "t85 = (0.2823705740248932030511071641312341561894e2 + 0.3e1 / 0.4e1 * t3 * t29 * t77 * t76) ** (0.1e1 / 0.4e1)";
  "t100 = lax_cond(r0 / 0.2e1 <= p_a_dens_threshold, 0, -0.3e1 / 0.8e1 * t3 / t4 * t18 * t19 * (0.1e1 - t27 * t30 * t34 * t39 / 0.24e2 + t22 * t26 * s0 * t29 * t34 * t39 * (0.1e1 + params_a_c * t21 * t26 * t35 / 0.24e2) / (0.1e1 + params_a_c * t53 * t55 * t56 * t29 * t61 / math.pi * t64 * t78 * t85 / 0.8e1) / 0.24e2))";
  "res = 0.2e1 * t100"]%b.

(* gen_repo/impl/prebuilt/pol/gga_x_b86.py *)
Definition pol_gga_x_b86 : list bstr := [
  "t2 = 3 ** (0.1e1 / 0.3e1)";
  "t3 = math.pi ** (0.1e1 / 0.3e1)";
  "t5 = t2 / t3";
  "t6 = r0 + r1";
  "t7 = 0.1e1 / t6";
  "t10 = 0.2e1 * r0 * t7 <= p_a_zeta_threshold";
  "t11 = p_a_zeta_threshold - 0.1e1";
  "t14 = 0.2e1 * r1 * t7 <= p_a_zeta_threshold";
  "t15 = -t11";
  "t17 = (r0 - r1) * t7";
  "t18 = lax_cond(t14, t15, t17)";
  "t19 = lax_cond(t10, t11, t18)";
  "t20 = 0.1e1 + t19";
  "t22 = p_a_zeta_threshold ** (0.1e1 / 0.3e1)";
  "t23 = t22 * p_a_zeta_threshold";
  "t24 = t20 ** (0.1e1 / 0.3e1)";
  "t26 = lax_cond(t20 <= p_a_zeta_threshold, t23, t24 * t20)";
  "t27 = t6 ** (0.1e1 / 0.3e1)";
  "t30 = r0 ** 2";
  "t31 = r0 ** (0.1e1 / 0.3e1)";
  "t32 = t31 ** 2";
  "t34 = 0.1e1 / t32 / t30";
  "t38 = (params_a_gamma * s0 * t34 + 0.1e1) ** params_a_omega";
  "t46 = lax_cond(r0 <= p_a_dens_threshold, 0, -0.3e1 / 0.8e1 * t5 * t26 * t27 * (0.1e1 + params_a_beta * s0 * t34 / t38))";
  "t48 = lax_cond(t10, t15, -t17)";
  "t49 = lax_cond(t14, t11, t48)";
  "t50 = 0.1e1 + t49";
  "t52 = t50 ** (0.1e1 / 0.3e1)";
  "t54 = lax_cond(t50 <= p_a_zeta_threshold, t23, t52 * t50)";
  "t57 = r1 ** 2";
  "t58 = r1 ** (0.1e1 / 0.3e1)";
  "t59 = t58 ** 2";
  "t61 = 0.1e1 / t59 / t57";
  "t65 = (params_a_gamma * s2 * t61 + 0.1e1) ** params_a_omega";
  "t73 = lax_cond(r1 <= p_a_dens_threshold, 0, -0.3e1 / 0.8e1 * t5 * t54 * t27 * (0.1e1 + params_a_beta * s2 * t61 / t65))";
  "res = t46 + t73"]%b.

(* gen_repo/impl/prebuilt/unpol/gga_x_b86.py *)
Definition unpol_gga_x_b86 : list bstr := [
  "t3 = 3 ** (0.1e1 / 0.3e1)";
  "t4 = math.pi ** (0.1e1 / 0.3e1)";
  "t7 = 0.1e1 <= p_a_zeta_threshold";
  "t8 = p_a_zeta_threshold - 0.1e1";
  "t10 = lax_cond(t7, -t8, 0)";
  "t11 = lax_cond(t7, t8, t10)";
  "t12 = 0.1e1 + t11";
  "t14 = p_a_zeta_threshold ** (0.1e1 / 0.3e1)";
  "t16 = t12 ** (0.1e1 / 0.3e1)";
  "t18 = lax_cond(t12 <= p_a_zeta_threshold, t14 * p_a_zeta_threshold, t16 * t12)";
  "t19 = r0 ** (0.1e1 / 0.3e1)";
  "t22 = 2 ** (0.1e1 / 0.3e1)";
  "t23 = t22 ** 2";
  "t24 = r0 ** 2";
  "t25 = t19 ** 2";
  "t28 = t23 / t25 / t24";
  "t32 = (params_a_gamma * s0 * t28 + 0.1e1) ** params_a_omega";
  "t40 = lax_cond(r0 / 0.2e1 <= p_a_dens_threshold, 0, -0.3e1 / 0.8e1 * t3 / t4 * t18 * t19 * (0.1e1 + params_a_beta * s0 * t28 / t32))";
  "res = 0.2e1 * t40"]%b.

(* gen_repo/impl/prebuilt/pol/gga_x_b88.py *)
Definition pol_gga_x_b88 : list bstr := [
  "t2 = 3 ** (0.1e1 / 0.3e1)";
  "t3 = math.pi ** (0.1e1 / 0.3e1)";
  "t5 = t2 / t3";
  "t6 = r0 + r1";
  "t7 = 0.1e1 / t6";
  "t10 = 0.2e1 * r0 * t7 <= p_a_zeta_threshold";
  "t11 = p_a_zeta_threshold - 0.1e1";
  "t14 = 0.2e1 * r1 * t7 <= p_a_zeta_threshold";
  "t15 = -t11";
  "t17 = (r0 - r1) * t7";
  "t18 = lax_cond(t14, t15, t17)";
  "t19 = lax_cond(t10, t11, t18)";
  "t20 = 0.1e1 + t19";
  "t22 = p_a_zeta_threshold ** (0.1e1 / 0.3e1)";
  "t23 = t22 * p_a_zeta_threshold";
  "t24 = t20 ** (0.1e1 / 0.3e1)";
  "t26 = lax_cond(t20 <= p_a_zeta_threshold, t23, t24 * t20)";
  "t27 = t6 ** (0.1e1 / 0.3e1)";
  "t29 = t2 ** 2";
  "t32 = (0.1e1 / math.pi) ** (0.1e1 / 0.3e1)";
  "t34 = params_a_beta * t29 / t32";
  "t35 = 4 ** (0.1e1 / 0.3e1)";
  "t37 = r0 ** 2";
  "t38 = r0 ** (0.1e1 / 0.3e1)";
  "t39 = t38 ** 2";
  "t42 = params_a_gamma * params_a_beta";
  "t43 = math.sqrt(s0)";
  "t46 = t43 / t38 / r0";
  "t47 = math.asinh(t46)";
  "t60 = lax_cond(r0 <= p_a_dens_threshold, 0, -0.3e1 / 0.8e1 * t5 * t26 * t27 * (0.1e1 + 0.2e1 / 0.9e1 * t34 * t35 * s0 / t39 / t37 / (t42 * t46 * t47 + 0.1e1)))";
  "t62 = lax_cond(t10, t15, -t17)";
  "t63 = lax_cond(t14, t11, t62)";
  "t64 = 0.1e1 + t63";
  "t66 = t64 ** (0.1e1 / 0.3e1)";
  "t68 = lax_cond(t64 <= p_a_zeta_threshold, t23, t66 * t64)";
  "t71 = r1 ** 2";
  "t72 = r1 ** (0.1e1 / 0.3e1)";
  "t73 = t72 ** 2";
  "t76 = math.sqrt(s2)";
  "t79 = t76 / t72 / r1";
  "t80 = math.asinh(t79)";
  "t93 = lax_cond(r1 <= p_a_dens_threshold, 0, -0.3e1 / 0.8e1 * t5 * t68 * t27 * (0.1e1 + 0.2e1 / 0.9e1 * t34 * t35 * s2 / t73 / t71 / (t42 * t79 * t80 + 0.1e1)))";
  "res = t60 + t93"]%b.

(* gen_repo/impl/prebuilt/unpol/gga_x_b88.py *)
Definition unpol_gga_x_b88 : list bstr := [
  "t3 = 3 ** (0.1e1 / 0.3e1)";
  "t4 = math.pi ** (0.1e1 / 0.3e1)";
  "t7 = 0.1e1 <= p_a_zeta_threshold";
  "t8 = p_a_zeta_threshold - 0.1e1";
  "t10 = lax_cond(t7, -t8, 0)";
  "t11 = lax_cond(t7, t8, t10)";
  "t12 = 0.1e1 + t11";
  "t14 = p_a_zeta_threshold ** (0.1e1 / 0.3e1)";
  "t16 = t12 ** (0.1e1 / 0.3e1)";
  "t18 = lax_cond(t12 <= p_a_zeta_threshold, t14 * p_a_zeta_threshold, t16 * t12)";
  "t19 = r0 ** (0.1e1 / 0.3e1)";
  "t21 = t3 ** 2";
  "t24 = (0.1e1 / math.pi) ** (0.1e1 / 0.3e1)";
  "t26 = 4 ** (0.1e1 / 0.3e1)";
  "t29 = 2 ** (0.1e1 / 0.3e1)";
  "t30 = t29 ** 2";
  "t32 = r0 ** 2";
  "t33 = t19 ** 2";
  "t37 = math.sqrt(s0)";
  "t40 = 0.1e1 / t19 / r0";
  "t44 = math.asinh(t37 * t29 * t40)";
  "t57 = lax_cond(r0 / 0.2e1 <= p_a_dens_threshold, 0, -0.3e1 / 0.8e1 * t3 / t4 * t18 * t19 * (0.1e1 + 0.2e1 / 0.9e1 * params_a_beta * t21 / t24 * t26 * s0 * t30 / t33 / t32 / (params_a_gamma * params_a_beta * t37 * t29 * t40 * t44 + 0.1e1)))";
  "res = 0.2e1 * t57"]%b.

(* gen_repo/impl/prebuilt/pol/gga_x_bayesian.py *)
Definition pol_gga_x_bayesian : list bstr := [
  "t2 = 3 ** (0.1e1 / 0.3e1)";
  "t3 = math.pi ** (0.1e1 / 0.3e1)";
  "t5 = t2 / t3";
  "t6 = r0 + r1";
  "t7 = 0.1e1 / t6";
  "t10 = 0.2e1 * r0 * t7 <= p_a_zeta_threshold";
  "t11 = p_a_zeta_threshold - 0.1e1";
  "t14 = 0.2e1 * r1 * t7 <= p_a_zeta_threshold";
  "t15 = -t11";
  "t17 = (r0 - r1) * t7";
  "t18 = lax_cond(t14, t15, t17)";
  "t19 = lax_cond(t10, t11, t18)";
  "t20 = 0.1e1 + t19";
  "t22 = p_a_zeta_threshold ** (0.1e1 / 0.3e1)";
  "t23 = t22 * p_a_zeta_threshold";
  "t24 = t20 ** (0.1e1 / 0.3e1)";
  "t26 = lax_cond(t20 <= p_a_zeta_threshold, t23, t24 * t20)";
  "t27 = t6 ** (0.1e1 / 0.3e1)";
  "t29 = 6 ** (0.1e1 / 0.3e1)";
  "t30 = math.pi ** 2";
  "t31 = t30 ** (0.1e1 / 0.3e1)";
  "t32 = t31 ** 2";
  "t34 = t29 / t32";
  "t36 = r0 ** 2";
  "t37 = r0 ** (0.1e1 / 0.3e1)";
  "t38 = t37 ** 2";
  "t40 = 0.1e1 / t38 / t36";
  "t41 = t29 ** 2";
  "t43 = t41 / t31";
  "t44 = math.sqrt(s0)";
  "t51 = (0.1e1 + t43 * t44 / t37 / r0 / 0.12e2) ** 2";
  "t52 = 0.1e1 / t51";
  "t66 = lax_cond(r0 <= p_a_dens_threshold, 0, -0.3e1 / 0.8e1 * t5 * t26 * t27 * (0.10008e1 + t34 * s0 * t40 * t52 * (0.1926e0 + 0.79008333333333333333e-1 * t34 * s0 * t40 * t52) / 0.24e2))";
  "t68 = lax_cond(t10, t15, -t17)";
  "t69 = lax_cond(t14, t11, t68)";
  "t70 = 0.1e1 + t69";
  "t72 = t70 ** (0.1e1 / 0.3e1)";
  "t74 = lax_cond(t70 <= p_a_zeta_threshold, t23, t72 * t70)";
  "t77 = r1 ** 2";
  "t78 = r1 ** (0.1e1 / 0.3e1)";
  "t79 = t78 ** 2";
  "t81 = 0.1e1 / t79 / t77";
  "t82 = math.sqrt(s2)";
  "t89 = (0.1e1 + t43 * t82 / t78 / r1 / 0.12e2) ** 2";
  "t90 = 0.1e1 / t89";
  "t104 = lax_cond(r1 <= p_a_dens_threshold, 0, -0.3e1 / 0.8e1 * t5 * t74 * t27 * (0.10008e1 + t34 * s2 * t81 * t90 * (0.1926e0 + 0.79008333333333333333e-1 * t34 * s2 * t81 * t90) / 0.24e2))";
  "res = t66 + t104"]%b.

(* gen_repo/impl/prebuilt/unpol/gga_x_bayesian.py *)
Definition unpol_gga_x_bayesian : list bstr := [
  "t3 = 3 ** (0.1e1 / 0.3e1)";
  "t4 = math.pi ** (0.1e1 / 0.3e1)";
  "t7 = 0.1e1 <= p_a_zeta_threshold";
  "t8 = p_a_zeta_threshold - 0.1e1";
  "t10 = lax_cond(t7, -t8, 0)";
  "t11 = lax_cond(t7, t8, t10)";
  "t12 = 0.1e1 + t11";
  "t14 = p_a_zeta_threshold ** (0.1e1 / 0.3e1)";
  "t16 = t12 ** (0.1e1 / 0.3e1)";
  "t18 = lax_cond(t12 <= p_a_zeta_threshold, t14 * p_a_zeta_threshold, t16 * t12)";
  "t19 = r0 ** (0.1e1 / 0.3e1)";
  "t21 = 6 ** (0.1e1 / 0.3e1)";
  "t22 = math.pi ** 2";
  "t23 = t22 ** (0.1e1 / 0.3e1)";
  "t24 = t23 ** 2";
  "t27 = t21 / t24 * s0";
  "t28 = 2 ** (0.1e1 / 0.3e1)";
  "t29 = t28 ** 2";
  "t30 = r0 ** 2";
  "t31 = t19 ** 2";
  "t34 = t29 / t31 / t30";
  "t35 = t21 ** 2";
  "t38 = math.sqrt(s0)";
  "t46 = (0.1e1 + t35 / t23 * t38 * t28 / t19 / r0 / 0.12e2) ** 2";
  "t47 = 0.1e1 / t46";
  "t60 = lax_cond(r0 / 0.2e1 <= p_a_dens_threshold, 0, -0.3e1 / 0.8e1 * t3 / t4 * t18 * t19 * (0.10008e1 + t27 * t34 * t47 * (0.1926e0 + 0.79008333333333333333e-1 * t27 * t34 * t47) / 0.24e2))";
  "res = 0.2e1 * t60"]%b.

(* gen_repo/impl/prebuilt/pol/gga_x_beefvdw.py *)
Definition pol_gga_x_beefvdw : list bstr := [
  "t2 = 3 ** (0.1e1 / 0.3e1)";
  "t3 = math.pi ** (0.1e1 / 0.3e1)";
  "t5 = t2 / t3";
  "t6 = r0 + r1";
  "t7 = 0.1e1 / t6";
  "t10 = 0.2e1 * r0 * t7 <= p_a_zeta_threshold";
  "t11 = p_a_zeta_threshold - 0.1e1";
  "t14 = 0.2e1 * r1 * t7 <= p_a_zeta_threshold";
  "t15 = -t11";
  "t17 = (r0 - r1) * t7";
  "t18 = lax_cond(t14, t15, t17)";
  "t19 = lax_cond(t10, t11, t18)";
  "t20 = t19 + 0.1e1";
  "t22 = p_a_zeta_threshold ** (0.1e1 / 0.3e1)";
  "t23 = t22 * p_a_zeta_threshold";
  "t24 = t20 ** (0.1e1 / 0.3e1)";
  "t26 = lax_cond(t20 <= p_a_zeta_threshold, t23, t24 * t20)";
  "t27 = t6 ** (0.1e1 / 0.3e1)";
  "t29 = 6 ** (0.1e1 / 0.3e1)";
  "t30 = math.pi ** 2";
  "t31 = t30 ** (0.1e1 / 0.3e1)";
  "t32 = t31 ** 2";
  "t34 = t29 / t32";
  "t35 = r0 ** 2";
  "t36 = r0 ** (0.1e1 / 0.3e1)";
  "t37 = t36 ** 2";
  "t40 = s0 / t37 / t35";
  "t46 = t34 * t40 / (0.4e1 + t34 * t40 / 0.24e2)";
  "t48 = t46 / 0.12e2 - 0.1e1";
  "t49 = t48 ** 2";
  "t50 = t49 ** 2";
  "t51 = t50 * t48";
  "t52 = t50 ** 2";
  "t53 = t52 * t51";
  "t54 = t52 ** 2";
  "t57 = t49 * t48";
  "t58 = t52 * t57";
  "t61 = t52 * t50";
  "t64 = t52 * t48";
  "t67 = t52 * t49";
  "t72 = t50 * t49";
  "t75 = t50 * t57";
  "t91 = 0.41355861880146538750e4 * t54 * t53 - 0.29150193011493262292e5 * t54 * t58 - 0.54277774626371860320e4 * t54 * t61 + 0.90365611108522808258e5 * t54 * t64 + 0.40074935854432390114e5 * t54 * t67 - 0.13204466182182150467e6 * t54 * t52 + 0.25589479526235334610e6 * t54 * t72 - 0.16114215399846280595e6 * t54 * t75 - 0.32352403136049329184e6 * t54 * t50 + 0.18078200670879145336e6 * t54 * t51 + 0.27967048856303053872e6 * t54 * t49 - 0.12981481812794983922e6 * t54 * t57 + 0.56174007979372666951e5 * t54 * t48 - 0.10276426607863824397e5 * t52 * t75 - 0.16837084139014120539e6 * t54";
  "t107 = 0.11313514630621233134e1 - 0.2810240180568462990e4 * t53 + 0.70504541869034010051e5 * t52 * t72 + 0.22748997850816485208e4 * t58 - 0.20148245175625047025e5 * t61 + 0.37835396407252402359e4 * t67 - 0.44233229018433803622e3 * t52 - 0.61754786104528599731e3 * t64 + 0.30542034959315850168e2 * t72 + 0.86005730499279641299e2 * t75 - 0.69459735177638985466e0 * t50 - 0.72975787893717136018e1 * t51 - 0.38916037779196815969e0 * t49 + 0.52755620115589800943e0 * t57 + 0.37534251004296526981e-1 * t46";
  "t112 = lax_cond(r0 <= p_a_dens_threshold, 0, -0.3e1 / 0.8e1 * t5 * t26 * t27 * (t91 + t107))";
  "t114 = lax_cond(t10, t15, -t17)";
  "t115 = lax_cond(t14, t11, t114)";
  "t116 = t115 + 0.1e1";
  "t118 = t116 ** (0.1e1 / 0.3e1)";
  "t120 = lax_cond(t116 <= p_a_zeta_threshold, t23, t118 * t116)";
  "t122 = r1 ** 2";
  "t123 = r1 ** (0.1e1 / 0.3e1)";
  "t124 = t123 ** 2";
  "t127 = s2 / t124 / t122";
  "t133 = t34 * t127 / (0.4e1 + t34 * t127 / 0.24e2)";
  "t135 = t133 / 0.12e2 - 0.1e1";
  "t136 = t135 ** 2";
  "t137 = t136 ** 2";
  "t138 = t137 * t135";
  "t142 = t136 * t135";
  "t144 = t137 * t142";
  "t146 = t137 ** 2";
  "t148 = t146 * t142";
  "t150 = t137 * t136";
  "t152 = t146 * t135";
  "t154 = t146 * t136";
  "t156 = t146 * t138";
  "t160 = t146 * t137";
  "t162 = t146 ** 2";
  "t167 = -0.72975787893717136018e1 * t138 - 0.69459735177638985466e0 * t137 - 0.38916037779196815969e0 * t136 + 0.52755620115589800943e0 * t142 + 0.86005730499279641299e2 * t144 - 0.44233229018433803622e3 * t146 + 0.22748997850816485208e4 * t148 + 0.30542034959315850168e2 * t150 - 0.61754786104528599731e3 * t152 + 0.37835396407252402359e4 * t154 - 0.2810240180568462990e4 * t156 - 0.10276426607863824397e5 * t146 * t144 - 0.20148245175625047025e5 * t160 + 0.56174007979372666951e5 * t162 * t135 + 0.70504541869034010051e5 * t146 * t150";
  "t194 = 0.11313514630621233134e1 + 0.27967048856303053872e6 * t162 * t136 - 0.16837084139014120539e6 * t162 - 0.32352403136049329184e6 * t162 * t137 + 0.18078200670879145336e6 * t162 * t138 - 0.12981481812794983922e6 * t162 * t142 + 0.25589479526235334610e6 * t162 * t150 - 0.16114215399846280595e6 * t162 * t144 + 0.40074935854432390114e5 * t162 * t154 - 0.13204466182182150467e6 * t162 * t146 - 0.29150193011493262292e5 * t162 * t148 + 0.90365611108522808258e5 * t162 * t152 - 0.54277774626371860320e4 * t162 * t160 + 0.41355861880146538750e4 * t162 * t156 + 0.37534251004296526981e-1 * t133";
  "t199 = lax_cond(r1 <= p_a_dens_threshold, 0, -0.3e1 / 0.8e1 * t5 * t120 * t27 * (t167 + t194))";
  "res = t112 + t199"]%b.

(* gen_repo/impl/prebuilt/unpol/gga_x_beefvdw.py *)
Definition unpol_gga_x_beefvdw : list bstr := [
  "t3 = 3 ** (0.1e1 / 0.3e1)";
  "t4 = math.pi ** (0.1e1 / 0.3e1)";
  "t7 = 0.1e1 <= p_a_zeta_threshold";
  "t8 = p_a_zeta_threshold - 0.1e1";
  "t10 = lax_cond(t7, -t8, 0)";
  "t11 = lax_cond(t7, t8, t10)";
  "t12 = t11 + 0.1e1";
  "t14 = p_a_zeta_threshold ** (0.1e1 / 0.3e1)";
  "t16 = t12 ** (0.1e1 / 0.3e1)";
  "t18 = lax_cond(t12 <= p_a_zeta_threshold, t14 * p_a_zeta_threshold, t16 * t12)";
  "t19 = r0 ** (0.1e1 / 0.3e1)";
  "t21 = 6 ** (0.1e1 / 0.3e1)";
  "t22 = math.pi ** 2";
  "t23 = t22 ** (0.1e1 / 0.3e1)";
  "t24 = t23 ** 2";
  "t26 = t21 / t24";
  "t28 = 2 ** (0.1e1 / 0.3e1)";
  "t29 = t28 ** 2";
  "t30 = r0 ** 2";
  "t31 = t19 ** 2";
  "t33 = 0.1e1 / t31 / t30";
  "t42 = t26 * s0 * t29 * t33 / (0.4e1 + t26 * s0 * t29 * t33 / 0.24e2)";
  "t44 = t42 / 0.12e2 - 0.1e1";
  "t45 = t44 ** 2";
  "t46 = t45 ** 2";
  "t47 = t46 * t44";
  "t48 = t46 ** 2";
  "t49 = t48 * t47";
  "t50 = t48 ** 2";
  "t53 = t48 * t46";
  "t56 = t48 * t45";
  "t59 = t45 * t44";
  "t60 = t48 * t59";
  "t63 = t48 * t44";
  "t66 = t46 * t59";
  "t71 = t46 * t45";
  "t87 = 0.41355861880146538750e4 * t50 * t49 - 0.54277774626371860320e4 * t50 * t53 + 0.40074935854432390114e5 * t50 * t56 - 0.29150193011493262292e5 * t50 * t60 + 0.90365611108522808258e5 * t50 * t63 - 0.16114215399846280595e6 * t50 * t66 - 0.13204466182182150467e6 * t50 * t48 + 0.25589479526235334610e6 * t50 * t71 - 0.32352403136049329184e6 * t50 * t46 + 0.18078200670879145336e6 * t50 * t47 - 0.12981481812794983922e6 * t50 * t59 + 0.56174007979372666951e5 * t50 * t44 + 0.27967048856303053872e6 * t50 * t45 - 0.16837084139014120539e6 * t50 + 0.70504541869034010051e5 * t48 * t71";
  "t103 = 0.11313514630621233134e1 - 0.10276426607863824397e5 * t48 * t66 - 0.2810240180568462990e4 * t49 + 0.22748997850816485208e4 * t60 - 0.20148245175625047025e5 * t53 + 0.37835396407252402359e4 * t56 - 0.44233229018433803622e3 * t48 - 0.61754786104528599731e3 * t63 + 0.86005730499279641299e2 * t66 - 0.72975787893717136018e1 * t47 + 0.30542034959315850168e2 * t71 - 0.69459735177638985466e0 * t46 - 0.38916037779196815969e0 * t45 + 0.52755620115589800943e0 * t59 + 0.37534251004296526981e-1 * t42";
  "t108 = lax_cond(r0 / 0.2e1 <= p_a_dens_threshold, 0, -0.3e1 / 0.8e1 * t3 / t4 * t18 * t19 * (t87 + t103))";
  "res = 0.2e1 * t108"]%b.

(* gen_repo/impl/prebuilt/pol/gga_x_bpccac.py *)
Definition pol_gga_x_bpccac : list bstr := [
  "t2 = 3 ** (0.1e1 / 0.3e1)";
  "t3 = math.pi ** (0.1e1 / 0.3e1)";
  "t5 = t2 / t3";
  "t6 = r0 + r1";
  "t7 = 0.1e1 / t6";
  "t10 = 0.2e1 * r0 * t7 <= p_a_zeta_threshold";
  "t11 = p_a_zeta_threshold - 0.1e1";
  "t14 = 0.2e1 * r1 * t7 <= p_a_zeta_threshold";
  "t15 = -t11";
  "t17 = (r0 - r1) * t7";
  "t18 = lax_cond(t14, t15, t17)";
  "t19 = lax_cond(t10, t11, t18)";
  "t20 = 0.1e1 + t19";
  "t22 = p_a_zeta_threshold ** (0.1e1 / 0.3e1)";
  "t23 = t22 * p_a_zeta_threshold";
  "t24 = t20 ** (0.1e1 / 0.3e1)";
  "t26 = lax_cond(t20 <= p_a_zeta_threshold, t23, t24 * t20)";
  "t27 = t6 ** (0.1e1 / 0.3e1)";
  "t29 = math.sqrt(s0)";
  "t30 = r0 ** (0.1e1 / 0.3e1)";
  "t33 = t29 / t30 / r0";
  "t35 = math.exp(-t33 + 0.19e2)";
  "t37 = 0.1e1 / (0.1e1 + t35)";
  "t39 = 6 ** (0.1e1 / 0.3e1)";
  "t40 = math.pi ** 2";
  "t41 = t40 ** (0.1e1 / 0.3e1)";
  "t42 = t41 ** 2";
  "t43 = 0.1e1 / t42";
  "t44 = t39 * t43";
  "t45 = r0 ** 2";
  "t46 = t30 ** 2";
  "t48 = 0.1e1 / t46 / t45";
  "t50 = t44 * s0 * t48";
  "t58 = math.exp(-0.25e2 / 0.6e1 * t50)";
  "t66 = t39 ** 2";
  "t69 = t66 / t41 / t40";
  "t70 = s0 ** 2";
  "t71 = t45 ** 2";
  "t77 = 0.69444444444444444444e-5 * t69 * t70 / t30 / t71 / r0";
  "t80 = t66 / t41";
  "t83 = math.asinh(0.64963333333333333333e0 * t80 * t33)";
  "t96 = lax_cond(r0 <= p_a_dens_threshold, 0, -0.3e1 / 0.8e1 * t5 * t26 * t27 * ((0.1e1 - t37) * (0.2227e1 - 0.1505529e1 / (0.1227e1 + 0.91464571985215458336e-2 * t50)) + t37 * (0.1e1 + ((0.2743e0 - 0.1508e0 * t58) * t39 * t43 * s0 * t48 / 0.24e2 - t77) / (0.1e1 + 0.16370833333333333333e-1 * t80 * t33 * t83 + t77))))";
  "t98 = lax_cond(t10, t15, -t17)";
  "t99 = lax_cond(t14, t11, t98)";
  "t100 = 0.1e1 + t99";
  "t102 = t100 ** (0.1e1 / 0.3e1)";
  "t104 = lax_cond(t100 <= p_a_zeta_threshold, t23, t102 * t100)";
  "t106 = math.sqrt(s2)";
  "t107 = r1 ** (0.1e1 / 0.3e1)";
  "t110 = t106 / t107 / r1";
  "t112 = math.exp(-t110 + 0.19e2)";
  "t114 = 0.1e1 / (0.1e1 + t112)";
  "t116 = r1 ** 2";
  "t117 = t107 ** 2";
  "t119 = 0.1e1 / t117 / t116";
  "t121 = t44 * s2 * t119";
  "t129 = math.exp(-0.25e2 / 0.6e1 * t121)";
  "t137 = s2 ** 2";
  "t138 = t116 ** 2";
  "t144 = 0.69444444444444444444e-5 * t69 * t137 / t107 / t138 / r1";
  "t148 = math.asinh(0.64963333333333333333e0 * t80 * t110)";
  "t161 = lax_cond(r1 <= p_a_dens_threshold, 0, -0.3e1 / 0.8e1 * t5 * t104 * t27 * ((0.1e1 - t114) * (0.2227e1 - 0.1505529e1 / (0.1227e1 + 0.91464571985215458336e-2 * t121)) + t114 * (0.1e1 + ((0.2743e0 - 0.1508e0 * t129) * t39 * t43 * s2 * t119 / 0.24e2 - t144) / (0.1e1 + 0.16370833333333333333e-1 * t80 * t110 * t148 + t144))))";
  "res = t96 + t161"]%b.

(* gen_repo/impl/prebuilt/unpol/gga_x_bpccac.py *)
Definition unpol_gga_x_bpccac : list bstr := [
  "t3 = 3 ** (0.1e1 / 0.3e1)";
  "t4 = math.pi ** (0.1e1 / 0.3e1)";
  "t7 = 0.1e1 <= p_a_zeta_threshold";
  "t8 = p_a_zeta_threshold - 0.1e1";
  "t10 = lax_cond(t7, -t8, 0)";
  "t11 = lax_cond(t7, t8, t10)";
  "t12 = 0.1e1 + t11";
  "t14 = p_a_zeta_threshold ** (0.1e1 / 0.3e1)";
  "t16 = t12 ** (0.1e1 / 0.3e1)";
  "t18 = lax_cond(t12 <= p_a_zeta_threshold, t14 * p_a_zeta_threshold, t16 * t12)";
  "t19 = r0 ** (0.1e1 / 0.3e1)";
  "t21 = math.sqrt(s0)";
  "t22 = 2 ** (0.1e1 / 0.3e1)";
  "t25 = 0.1e1 / t19 / r0";
  "t26 = t21 * t22 * t25";
  "t28 = math.exp(-t26 + 0.19e2)";
  "t30 = 0.1e1 / (0.1e1 + t28)";
  "t32 = 6 ** (0.1e1 / 0.3e1)";
  "t33 = math.pi ** 2";
  "t34 = t33 ** (0.1e1 / 0.3e1)";
  "t35 = t34 ** 2";
  "t36 = 0.1e1 / t35";
  "t38 = t22 ** 2";
  "t40 = r0 ** 2";
  "t41 = t19 ** 2";
  "t44 = s0 * t38 / t41 / t40";
  "t45 = t32 * t36 * t44";
  "t53 = math.exp(-0.25e2 / 0.6e1 * t45)";
  "t60 = t32 ** 2";
  "t64 = s0 ** 2";
  "t66 = t40 ** 2";
  "t72 = 0.13888888888888888889e-4 * t60 / t34 / t33 * t64 * t22 / t19 / t66 / r0";
  "t75 = t60 / t34";
  "t80 = math.asinh(0.64963333333333333333e0 * t75 * t26)";
  "t93 = lax_cond(r0 / 0.2e1 <= p_a_dens_threshold, 0, -0.3e1 / 0.8e1 * t3 / t4 * t18 * t19 * ((0.1e1 - t30) * (0.2227e1 - 0.1505529e1 / (0.1227e1 + 0.91464571985215458336e-2 * t45)) + t30 * (0.1e1 + ((0.2743e0 - 0.1508e0 * t53) * t32 * t36 * t44 / 0.24e2 - t72) / (0.1e1 + 0.16370833333333333333e-1 * t75 * t21 * t22 * t25 * t80 + t72))))";
  "res = 0.2e1 * t93"]%b.

(* gen_repo/impl/prebuilt/pol/gga_x_c09x.py *)
Definition pol_gga_x_c09x : list bstr := [
  "t2 = 3 ** (0.1e1 / 0.3e1)";
  "t3 = math.pi ** (0.1e1 / 0.3e1)";
  "t5 = t2 / t3";
  "t6 = r0 + r1";
  "t7 = 0.1e1 / t6";
  "t10 = 0.2e1 * r0 * t7 <= p_a_zeta_threshold";
  "t11 = p_a_zeta_threshold - 0.1e1";
  "t14 = 0.2e1 * r1 * t7 <= p_a_zeta_threshold";
  "t15 = -t11";
  "t17 = (r0 - r1) * t7";
  "t18 = lax_cond(t14, t15, t17)";
  "t19 = lax_cond(t10, t11, t18)";
  "t20 = 0.1e1 + t19";
  "t22 = p_a_zeta_threshold ** (0.1e1 / 0.3e1)";
  "t23 = t22 * p_a_zeta_threshold";
  "t24 = t20 ** (0.1e1 / 0.3e1)";
  "t26 = lax_cond(t20 <= p_a_zeta_threshold, t23, t24 * t20)";
  "t27 = t6 ** (0.1e1 / 0.3e1)";
  "t29 = 6 ** (0.1e1 / 0.3e1)";
  "t30 = math.pi ** 2";
  "t31 = t30 ** (0.1e1 / 0.3e1)";
  "t32 = t31 ** 2";
  "t34 = t29 / t32";
  "t35 = r0 ** 2";
  "t36 = r0 ** (0.1e1 / 0.3e1)";
  "t37 = t36 ** 2";
  "t40 = s0 / t37 / t35";
  "t41 = t34 * t40";
  "t43 = math.exp(-0.20125000000000000000e-2 * t41)";
  "t48 = math.exp(-0.10062500000000000000e-2 * t41)";
  "t54 = lax_cond(r0 <= p_a_dens_threshold, 0, -0.3e1 / 0.8e1 * t5 * t26 * t27 * (0.2245e1 + 0.25708333333333333333e-2 * t34 * t40 * t43 - 0.1245e1 * t48))";
  "t56 = lax_cond(t10, t15, -t17)";
  "t57 = lax_cond(t14, t11, t56)";
  "t58 = 0.1e1 + t57";
  "t60 = t58 ** (0.1e1 / 0.3e1)";
  "t62 = lax_cond(t58 <= p_a_zeta_threshold, t23, t60 * t58)";
  "t64 = r1 ** 2";
  "t65 = r1 ** (0.1e1 / 0.3e1)";
  "t66 = t65 ** 2";
  "t69 = s2 / t66 / t64";
  "t70 = t34 * t69";
  "t72 = math.exp(-0.20125000000000000000e-2 * t70)";
  "t77 = math.exp(-0.10062500000000000000e-2 * t70)";
  "t83 = lax_cond(r1 <= p_a_dens_threshold, 0, -0.3e1 / 0.8e1 * t5 * t62 * t27 * (0.2245e1 + 0.25708333333333333333e-2 * t34 * t69 * t72 - 0.1245e1 * t77))";
  "res = t54 + t83"]%b.

(* gen_repo/impl/prebuilt/unpol/gga_x_c09x.py *)
Definition unpol_gga_x_c09x : list bstr := [
  "t3 = 3 ** (0.1e1 / 0.3e1)";
  "t4 = math.pi ** (0.1e1 / 0.3e1)";
  "t7 = 0.1e1 <= p_a_zeta_threshold";
  "t8 = p_a_zeta_threshold - 0.1e1";
  "t10 = lax_cond(t7, -t8, 0)";
  "t11 = lax_cond(t7, t8, t10)";
  "t12 = 0.1e1 + t11";
  "t14 = p_a_zeta_threshold ** (0.1e1 / 0.3e1)";
  "t16 = t12 ** (0.1e1 / 0.3e1)";
  "t18 = lax_cond(t12 <= p_a_zeta_threshold, t14 * p_a_zeta_threshold, t16 * t12)";
  "t19 = r0 ** (0.1e1 / 0.3e1)";
  "t21 = 6 ** (0.1e1 / 0.3e1)";
  "t22 = math.pi ** 2";
  "t23 = t22 ** (0.1e1 / 0.3e1)";
  "t24 = t23 ** 2";
  "t26 = t21 / t24";
  "t28 = 2 ** (0.1e1 / 0.3e1)";
  "t29 = t28 ** 2";
  "t30 = r0 ** 2";
  "t31 = t19 ** 2";
  "t33 = 0.1e1 / t31 / t30";
  "t37 = t26 * s0 * t29 * t33";
  "t39 = math.exp(-0.20125000000000000000e-2 * t37)";
  "t44 = math.exp(-0.10062500000000000000e-2 * t37)";
  "t50 = lax_cond(r0 / 0.2e1 <= p_a_dens_threshold, 0, -0.3e1 / 0.8e1 * t3 / t4 * t18 * t19 * (0.2245e1 + 0.25708333333333333333e-2 * t26 * s0 * t29 * t33 * t39 - 0.1245e1 * t44))";
  "res = 0.2e1 * t50"]%b.

(* gen_repo/impl/prebuilt/pol/gga_x_cap.py *)
Definition pol_gga_x_cap : list bstr := [
  "t2 = 3 ** (0.1e1 / 0.3e1)";
  "t3 = math.pi ** (0.1e1 / 0.3e1)";
  "t5 = t2 / t3";
  "t6 = r0 + r1";
  "t7 = 0.1e1 / t6";
  "t10 = 0.2e1 * r0 * t7 <= p_a_zeta_threshold";
  "t11 = p_a_zeta_threshold - 0.1e1";
  "t14 = 0.2e1 * r1 * t7 <= p_a_zeta_threshold";
  "t15 = -t11";
  "t17 = (r0 - r1) * t7";
  "t18 = lax_cond(t14, t15, t17)";
  "t19 = lax_cond(t10, t11, t18)";
  "t20 = 0.1e1 + t19";
  "t22 = p_a_zeta_threshold ** (0.1e1 / 0.3e1)";
  "t23 = t22 * p_a_zeta_threshold";
  "t24 = t20 ** (0.1e1 / 0.3e1)";
  "t26 = lax_cond(t20 <= p_a_zeta_threshold, t23, t24 * t20)";
  "t27 = t6 ** (0.1e1 / 0.3e1)";
  "t29 = 6 ** (0.1e1 / 0.3e1)";
  "t30 = t29 ** 2";
  "t32 = math.pi ** 2";
  "t33 = t32 ** (0.1e1 / 0.3e1)";
  "t34 = 0.1e1 / t33";
  "t35 = params_a_alphaoAx * t30 * t34";
  "t36 = math.sqrt(s0)";
  "t37 = r0 ** (0.1e1 / 0.3e1)";
  "t40 = t36 / t37 / r0";
  "t41 = t30 * t34";
  "t45 = math.log(0.1e1 + t41 * t40 / 0.12e2)";
  "t57 = lax_cond(r0 <= p_a_dens_threshold, 0, -0.3e1 / 0.8e1 * t5 * t26 * t27 * (0.1e1 - t35 * t40 * t45 / (params_a_c * t45 + 0.1e1) / 0.12e2))";
  "t59 = lax_cond(t10, t15, -t17)";
  "t60 = lax_cond(t14, t11, t59)";
  "t61 = 0.1e1 + t60";
  "t63 = t61 ** (0.1e1 / 0.3e1)";
  "t65 = lax_cond(t61 <= p_a_zeta_threshold, t23, t63 * t61)";
  "t67 = math.sqrt(s2)";
  "t68 = r1 ** (0.1e1 / 0.3e1)";
  "t71 = t67 / t68 / r1";
  "t75 = math.log(0.1e1 + t41 * t71 / 0.12e2)";
  "t87 = lax_cond(r1 <= p_a_dens_threshold, 0, -0.3e1 / 0.8e1 * t5 * t65 * t27 * (0.1e1 - t35 * t71 * t75 / (params_a_c * t75 + 0.1e1) / 0.12e2))";
  "res = t57 + t87"]%b.

(* gen_repo/impl/prebuilt/unpol/gga_x_cap.py *)
Definition unpol_gga_x_cap : list bstr := [
  "t3 = 3 ** (0.1e1 / 0.3e1)";
  "t4 = math.pi ** (0.1e1 / 0.3e1)";
  "t7 = 0.1e1 <= p_a_zeta_threshold";
  "t8 = p_a_zeta_threshold - 0.1e1";
  "t10 = lax_cond(t7, -t8, 0)";
  "t11 = lax_cond(t7, t8, t10)";
  "t12 = 0.1e1 + t11";
  "t14 = p_a_zeta_threshold ** (0.1e1 / 0.3e1)";
  "t16 = t12 ** (0.1e1 / 0.3e1)";
  "t18 = lax_cond(t12 <= p_a_zeta_threshold, t14 * p_a_zeta_threshold, t16 * t12)";
  "t19 = r0 ** (0.1e1 / 0.3e1)";
  "t21 = 6 ** (0.1e1 / 0.3e1)";
  "t22 = t21 ** 2";
  "t24 = math.pi ** 2";
  "t25 = t24 ** (0.1e1 / 0.3e1)";
  "t26 = 0.1e1 / t25";
  "t27 = math.sqrt(s0)";
  "t30 = 2 ** (0.1e1 / 0.3e1)";
  "t32 = 0.1e1 / t19 / r0";
  "t40 = math.log(0.1e1 + t22 * t26 * t27 * t30 * t32 / 0.12e2)";
  "t52 = lax_cond(r0 / 0.2e1 <= p_a_dens_threshold, 0, -0.3e1 / 0.8e1 * t3 / t4 * t18 * t19 * (0.1e1 - params_a_alphaoAx * t22 * t26 * t27 * t30 * t32 * t40 / (params_a_c * t40 + 0.1e1) / 0.12e2))";
  "res = 0.2e1 * t52"]%b.

(* gen_repo/impl/prebuilt/pol/gga_x_chachiyo.py *)
Definition pol_gga_x_chachiyo : list bstr := [
  "t2 = 3 ** (0.1e1 / 0.3e1)";
  "t3 = math.pi ** (0.1e1 / 0.3e1)";
  "t5 = t2 / t3";
  "t6 = r0 + r1";
  "t7 = 0.1e1 / t6";
  "t10 = 0.2e1 * r0 * t7 <= p_a_zeta_threshold";
  "t11 = p_a_zeta_threshold - 0.1e1";
  "t14 = 0.2e1 * r1 * t7 <= p_a_zeta_threshold";
  "t15 = -t11";
  "t17 = (r0 - r1) * t7";
  "t18 = lax_cond(t14, t15, t17)";
  "t19 = lax_cond(t10, t11, t18)";
  "t20 = t19 + 0.1e1";
  "t22 = p_a_zeta_threshold ** (0.1e1 / 0.3e1)";
  "t23 = t22 * p_a_zeta_threshold";
  "t24 = t20 ** (0.1e1 / 0.3e1)";
  "t26 = lax_cond(t20 <= p_a_zeta_threshold, t23, t24 * t20)";
  "t28 = t6 ** (0.1e1 / 0.3e1)";
  "t29 = t3 ** 2";
  "t30 = t2 * t29";
  "t31 = 2 ** (0.1e1 / 0.3e1)";
  "t33 = r0 ** 2";
  "t34 = r0 ** (0.1e1 / 0.3e1)";
  "t35 = t34 ** 2";
  "t41 = math.pi ** 2";
  "t42 = t2 ** 2";
  "t43 = t42 * t3";
  "t44 = t31 ** 2";
  "t45 = math.sqrt(s0)";
  "t50 = t43 * t44 * t45 / t34 / r0";
  "t53 = math.log(t50 / 0.27e2 + 0.1e1)";
  "t65 = lax_cond(r0 <= p_a_dens_threshold, 0, -0.3e1 / 0.8e1 * t5 * t26 * t28 * (0.2e1 / 0.81e2 * t30 * t31 * s0 / t35 / t33 + t41 * t53) / (t50 / 0.9e1 + t41) / t53)";
  "t67 = lax_cond(t10, t15, -t17)";
  "t68 = lax_cond(t14, t11, t67)";
  "t69 = t68 + 0.1e1";
  "t71 = t69 ** (0.1e1 / 0.3e1)";
  "t73 = lax_cond(t69 <= p_a_zeta_threshold, t23, t71 * t69)";
  "t76 = r1 ** 2";
  "t77 = r1 ** (0.1e1 / 0.3e1)";
  "t78 = t77 ** 2";
  "t84 = math.sqrt(s2)";
  "t89 = t43 * t44 * t84 / t77 / r1";
  "t92 = math.log(t89 / 0.27e2 + 0.1e1)";
  "t104 = lax_cond(r1 <= p_a_dens_threshold, 0, -0.3e1 / 0.8e1 * t5 * t73 * t28 * (0.2e1 / 0.81e2 * t30 * t31 * s2 / t78 / t76 + t41 * t92) / (t89 / 0.9e1 + t41) / t92)";
  "res = t65 + t104"]%b.

(* gen_repo/impl/prebuilt/unpol/gga_x_chachiyo.py *)
Definition unpol_gga_x_chachiyo : list bstr := [
  "t3 = 3 ** (0.1e1 / 0.3e1)";
  "t4 = math.pi ** (0.1e1 / 0.3e1)";
  "t7 = 0.1e1 <= p_a_zeta_threshold";
  "t8 = p_a_zeta_threshold - 0.1e1";
  "t10 = lax_cond(t7, -t8, 0)";
  "t11 = lax_cond(t7, t8, t10)";
  "t12 = t11 + 0.1e1";
  "t14 = p_a_zeta_threshold ** (0.1e1 / 0.3e1)";
  "t16 = t12 ** (0.1e1 / 0.3e1)";
  "t18 = lax_cond(t12 <= p_a_zeta_threshold, t14 * p_a_zeta_threshold, t16 * t12)";
  "t20 = r0 ** (0.1e1 / 0.3e1)";
  "t21 = t4 ** 2";
  "t23 = r0 ** 2";
  "t24 = t20 ** 2";
  "t30 = math.pi ** 2";
  "t31 = t3 ** 2";
  "t33 = math.sqrt(s0)";
  "t37 = t31 * t4 * t33 / t20 / r0";
  "t40 = math.log(0.2e1 / 0.27e2 * t37 + 0.1e1)";
  "t52 = lax_cond(r0 / 0.2e1 <= p_a_dens_threshold, 0, -0.3e1 / 0.8e1 * t3 / t4 * t18 * t20 * (0.4e1 / 0.81e2 * t3 * t21 * s0 / t24 / t23 + t30 * t40) / (0.2e1 / 0.9e1 * t37 + t30) / t40)";
  "res = 0.2e1 * t52"]%b.

(* gen_repo/impl/prebuilt/pol/gga_x_dk87.py *)
Definition pol_gga_x_dk87 : list bstr := [
  "t2 = 3 ** (0.1e1 / 0.3e1)";
  "t3 = math.pi ** (0.1e1 / 0.3e1)";
  "t5 = t2 / t3";
  "t6 = r0 + r1";
  "t7 = 0.1e1 / t6";
  "t10 = 0.2e1 * r0 * t7 <= p_a_zeta_threshold";
  "t11 = p_a_zeta_threshold - 0.1e1";
  "t14 = 0.2e1 * r1 * t7 <= p_a_zeta_threshold";
  "t15 = -t11";
  "t17 = (r0 - r1) * t7";
  "t18 = lax_cond(t14, t15, t17)";
  "t19 = lax_cond(t10, t11, t18)";
  "t20 = 0.1e1 + t19";
  "t22 = p_a_zeta_threshold ** (0.1e1 / 0.3e1)";
  "t23 = t22 * p_a_zeta_threshold";
  "t24 = t20 ** (0.1e1 / 0.3e1)";
  "t26 = lax_cond(t20 <= p_a_zeta_threshold, t23, t24 * t20)";
  "t27 = t6 ** (0.1e1 / 0.3e1)";
  "t29 = 0.1e1 / math.pi";
  "t30 = 6 ** (0.1e1 / 0.3e1)";
  "t31 = t30 ** 2";
  "t33 = math.pi ** 2";
  "t34 = t33 ** (0.1e1 / 0.3e1)";
  "t36 = t2 ** 2";
  "t38 = t29 ** (0.1e1 / 0.3e1)";
  "t41 = t29 * t31 / t34 * t36 / t38";
  "t42 = 4 ** (0.1e1 / 0.3e1)";
  "t44 = r0 ** 2";
  "t45 = r0 ** (0.1e1 / 0.3e1)";
  "t46 = t45 ** 2";
  "t48 = 0.1e1 / t46 / t44";
  "t49 = math.sqrt(s0)";
  "t53 = (t49 / t45 / r0) ** params_a_alpha";
  "t69 = lax_cond(r0 <= p_a_dens_threshold, 0, -0.3e1 / 0.8e1 * t5 * t26 * t27 * (0.1e1 + 0.7e1 / 0.11664e5 * t41 * t42 * s0 * t48 * (params_a_a1 * t53 + 0.1e1) / (params_a_b1 * s0 * t48 + 0.1e1)))";
  "t71 = lax_cond(t10, t15, -t17)";
  "t72 = lax_cond(t14, t11, t71)";
  "t73 = 0.1e1 + t72";
  "t75 = t73 ** (0.1e1 / 0.3e1)";
  "t77 = lax_cond(t73 <= p_a_zeta_threshold, t23, t75 * t73)";
  "t80 = r1 ** 2";
  "t81 = r1 ** (0.1e1 / 0.3e1)";
  "t82 = t81 ** 2";
  "t84 = 0.1e1 / t82 / t80";
  "t85 = math.sqrt(s2)";
  "t89 = (t85 / t81 / r1) ** params_a_alpha";
  "t105 = lax_cond(r1 <= p_a_dens_threshold, 0, -0.3e1 / 0.8e1 * t5 * t77 * t27 * (0.1e1 + 0.7e1 / 0.11664e5 * t41 * t42 * s2 * t84 * (params_a_a1 * t89 + 0.1e1) / (params_a_b1 * s2 * t84 + 0.1e1)))";
  "res = t69 + t105"]%b.

(* gen_repo/impl/prebuilt/unpol/gga_x_dk87.py *)
Definition unpol_gga_x_dk87 : list bstr := [
  "t3 = 3 ** (0.1e1 / 0.3e1)";
  "t4 = math.pi ** (0.1e1 / 0.3e1)";
  "t7 = 0.1e1 <= p_a_zeta_threshold";
  "t8 = p_a_zeta_threshold - 0.1e1";
  "t10 = lax_cond(t7, -t8, 0)";
  "t11 = lax_cond(t7, t8, t10)";
  "t12 = 0.1e1 + t11";
  "t14 = p_a_zeta_threshold ** (0.1e1 / 0.3e1)";
  "t16 = t12 ** (0.1e1 / 0.3e1)";
  "t18 = lax_cond(t12 <= p_a_zeta_threshold, t14 * p_a_zeta_threshold, t16 * t12)";
  "t19 = r0 ** (0.1e1 / 0.3e1)";
  "t21 = 0.1e1 / math.pi";
  "t22 = 6 ** (0.1e1 / 0.3e1)";
  "t23 = t22 ** 2";
  "t25 = math.pi ** 2";
  "t26 = t25 ** (0.1e1 / 0.3e1)";
  "t28 = t3 ** 2";
  "t30 = t21 ** (0.1e1 / 0.3e1)";
  "t34 = 4 ** (0.1e1 / 0.3e1)";
  "t36 = 2 ** (0.1e1 / 0.3e1)";
  "t37 = t36 ** 2";
  "t39 = r0 ** 2";
  "t40 = t19 ** 2";
  "t42 = 0.1e1 / t40 / t39";
  "t43 = math.sqrt(s0)";
  "t48 = (t43 * t36 / t19 / r0) ** params_a_alpha";
  "t65 = lax_cond(r0 / 0.2e1 <= p_a_dens_threshold, 0, -0.3e1 / 0.8e1 * t3 / t4 * t18 * t19 * (0.1e1 + 0.7e1 / 0.11664e5 * t21 * t23 / t26 * t28 / t30 * t34 * s0 * t37 * t42 * (params_a_a1 * t48 + 0.1e1) / (params_a_b1 * s0 * t37 * t42 + 0.1e1)))";
  "res = 0.2e1 * t65"]%b.

(* gen_repo/impl/prebuilt/pol/gga_x_ev93.py *)
Definition pol_gga_x_ev93 : list bstr := [
  "t2 = 3 ** (0.1e1 / 0.3e1)";
  "t3 = math.pi ** (0.1e1 / 0.3e1)";
  "t5 = t2 / t3";
  "t6 = r0 + r1";
  "t7 = 0.1e1 / t6";
  "t10 = 0.2e1 * r0 * t7 <= p_a_zeta_threshold";
  "t11 = p_a_zeta_threshold - 0.1e1";
  "t14 = 0.2e1 * r1 * t7 <= p_a_zeta_threshold";
  "t15 = -t11";
  "t17 = (r0 - r1) * t7";
  "t18 = lax_cond(t14, t15, t17)";
  "t19 = lax_cond(t10, t11, t18)";
  "t20 = 0.1e1 + t19";
  "t22 = p_a_zeta_threshold ** (0.1e1 / 0.3e1)";
  "t23 = t22 * p_a_zeta_threshold";
  "t24 = t20 ** (0.1e1 / 0.3e1)";
  "t26 = lax_cond(t20 <= p_a_zeta_threshold, t23, t24 * t20)";
  "t28 = t6 ** (0.1e1 / 0.3e1)";
  "t29 = 6 ** (0.1e1 / 0.3e1)";
  "t30 = params_a_a1 * t29";
  "t31 = math.pi ** 2";
  "t32 = t31 ** (0.1e1 / 0.3e1)";
  "t33 = t32 ** 2";
  "t34 = 0.1e1 / t33";
  "t36 = r0 ** 2";
  "t37 = r0 ** (0.1e1 / 0.3e1)";
  "t38 = t37 ** 2";
  "t41 = t34 * s0 / t38 / t36";
  "t44 = t29 ** 2";
  "t45 = params_a_a2 * t44";
  "t47 = 0.1e1 / t32 / t31";
  "t48 = s0 ** 2";
  "t50 = t36 ** 2";
  "t54 = t47 * t48 / t37 / t50 / r0";
  "t57 = t31 ** 2";
  "t58 = 0.1e1 / t57";
  "t59 = params_a_a3 * t58";
  "t61 = t50 ** 2";
  "t63 = t48 * s0 / t61";
  "t68 = params_a_b1 * t29";
  "t71 = params_a_b2 * t44";
  "t74 = params_a_b3 * t58";
  "t82 = lax_cond(r0 <= p_a_dens_threshold, 0, -0.3e1 / 0.8e1 * t5 * t26 * t28 * (0.1e1 + t30 * t41 / 0.24e2 + t45 * t54 / 0.576e3 + t59 * t63 / 0.2304e4) / (0.1e1 + t68 * t41 / 0.24e2 + t71 * t54 / 0.576e3 + t74 * t63 / 0.2304e4))";
  "t84 = lax_cond(t10, t15, -t17)";
  "t85 = lax_cond(t14, t11, t84)";
  "t86 = 0.1e1 + t85";
  "t88 = t86 ** (0.1e1 / 0.3e1)";
  "t90 = lax_cond(t86 <= p_a_zeta_threshold, t23, t88 * t86)";
  "t93 = r1 ** 2";
  "t94 = r1 ** (0.1e1 / 0.3e1)";
  "t95 = t94 ** 2";
  "t98 = t34 * s2 / t95 / t93";
  "t101 = s2 ** 2";
  "t103 = t93 ** 2";
  "t107 = t47 * t101 / t94 / t103 / r1";
  "t111 = t103 ** 2";
  "t113 = t101 * s2 / t111";
  "t129 = lax_cond(r1 <= p_a_dens_threshold, 0, -0.3e1 / 0.8e1 * t5 * t90 * t28 * (0.1e1 + t30 * t98 / 0.24e2 + t45 * t107 / 0.576e3 + t59 * t113 / 0.2304e4) / (0.1e1 + t68 * t98 / 0.24e2 + t71 * t107 / 0.576e3 + t74 * t113 / 0.2304e4))";
  "res = t82 + t129"]%b.

(* gen_repo/impl/prebuilt/unpol/gga_x_ev93.py *)
Definition unpol_gga_x_ev93 : list bstr := [
  "t3 = 3 ** (0.1e1 / 0.3e1)";
  "t4 = math.pi ** (0.1e1 / 0.3e1)";
  "t7 = 0.1e1 <= p_a_zeta_threshold";
  "t8 = p_a_zeta_threshold - 0.1e1";
  "t10 = lax_cond(t7, -t8, 0)";
  "t11 = lax_cond(t7, t8, t10)";
  "t12 = 0.1e1 + t11";
  "t14 = p_a_zeta_threshold ** (0.1e1 / 0.3e1)";
  "t16 = t12 ** (0.1e1 / 0.3e1)";
  "t18 = lax_cond(t12 <= p_a_zeta_threshold, t14 * p_a_zeta_threshold, t16 * t12)";
  "t20 = r0 ** (0.1e1 / 0.3e1)";
  "t21 = 6 ** (0.1e1 / 0.3e1)";
  "t23 = math.pi ** 2";
  "t24 = t23 ** (0.1e1 / 0.3e1)";
  "t25 = t24 ** 2";
  "t26 = 0.1e1 / t25";
  "t28 = 2 ** (0.1e1 / 0.3e1)";
  "t29 = t28 ** 2";
  "t31 = r0 ** 2";
  "t32 = t20 ** 2";
  "t35 = s0 * t29 / t32 / t31";
  "t38 = t21 ** 2";
  "t41 = 0.1e1 / t24 / t23";
  "t43 = s0 ** 2";
  "t45 = t31 ** 2";
  "t49 = t43 * t28 / t20 / t45 / r0";
  "t52 = t23 ** 2";
  "t53 = 0.1e1 / t52";
  "t56 = t45 ** 2";
  "t58 = t43 * s0 / t56";
  "t79 = lax_cond(r0 / 0.2e1 <= p_a_dens_threshold, 0, -0.3e1 / 0.8e1 * t3 / t4 * t18 * t20 * (0.1e1 + params_a_a1 * t21 * t26 * t35 / 0.24e2 + params_a_a2 * t38 * t41 * t49 / 0.288e3 + params_a_a3 * t53 * t58 / 0.576e3) / (0.1e1 + params_a_b1 * t21 * t26 * t35 / 0.24e2 + params_a_b2 * t38 * t41 * t49 / 0.288e3 + params_a_b3 * t53 * t58 / 0.576e3))";
  "res = 0.2e1 * t79"]%b.

(* gen_repo/impl/prebuilt/pol/gga_x_fd_lb94.py *)
Definition pol_gga_x_fd_lb94 : list bstr := [
  "t2 = 3 ** (0.1e1 / 0.3e1)";
  "t3 = math.pi ** (0.1e1 / 0.3e1)";
  "t5 = t2 / t3";
  "t6 = r0 + r1";
  "t7 = 0.1e1 / t6";
  "t10 = 0.2e1 * r0 * t7 <= p_a_zeta_threshold";
  "t11 = p_a_zeta_threshold - 0.1e1";
  "t14 = 0.2e1 * r1 * t7 <= p_a_zeta_threshold";
  "t15 = -t11";
  "t17 = (r0 - r1) * t7";
  "t18 = lax_cond(t14, t15, t17)";
  "t19 = lax_cond(t10, t11, t18)";
  "t20 = 0.1e1 + t19";
  "t22 = p_a_zeta_threshold ** (0.1e1 / 0.3e1)";
  "t23 = t22 * p_a_zeta_threshold";
  "t24 = t20 ** (0.1e1 / 0.3e1)";
  "t26 = lax_cond(t20 <= p_a_zeta_threshold, t23, t24 * t20)";
  "t27 = t6 ** (0.1e1 / 0.3e1)";
  "t29 = 6 ** (0.1e1 / 0.3e1)";
  "t30 = t29 ** 2";
  "t31 = math.pi ** 2";
  "t32 = t31 ** (0.1e1 / 0.3e1)";
  "t34 = t30 / t32";
  "t35 = math.sqrt(s0)";
  "t36 = r0 ** (0.1e1 / 0.3e1)";
  "t39 = t35 / t36 / r0";
  "t41 = t34 * t39 / 0.12e2";
  "t42 = fd_int0(t41)";
  "t43 = math.log(t41)";
  "t45 = fd_int1(t41)";
  "t54 = lax_cond(r0 <= p_a_dens_threshold, 0, -0.3e1 / 0.8e1 * t5 * t26 * t27 * (0.1e1 - t34 * t39 * (t42 * t43 - t45) / 0.12e2))";
  "t56 = lax_cond(t10, t15, -t17)";
  "t57 = lax_cond(t14, t11, t56)";
  "t58 = 0.1e1 + t57";
  "t60 = t58 ** (0.1e1 / 0.3e1)";
  "t62 = lax_cond(t58 <= p_a_zeta_threshold, t23, t60 * t58)";
  "t64 = math.sqrt(s2)";
  "t65 = r1 ** (0.1e1 / 0.3e1)";
  "t68 = t64 / t65 / r1";
  "t70 = t34 * t68 / 0.12e2";
  "t71 = fd_int0(t70)";
  "t72 = math.log(t70)";
  "t74 = fd_int1(t70)";
  "t83 = lax_cond(r1 <= p_a_dens_threshold, 0, -0.3e1 / 0.8e1 * t5 * t62 * t27 * (0.1e1 - t34 * t68 * (t71 * t72 - t74) / 0.12e2))";
  "res = t54 + t83"]%b.

(* gen_repo/impl/prebuilt/unpol/gga_x_fd_lb94.py *)
Definition unpol_gga_x_fd_lb94 : list bstr := [
  "t3 = 3 ** (0.1e1 / 0.3e1)";
  "t4 = math.pi ** (0.1e1 / 0.3e1)";
  "t7 = 0.1e1 <= p_a_zeta_threshold";
  "t8 = p_a_zeta_threshold - 0.1e1";
  "t10 = lax_cond(t7, -t8, 0)";
  "t11 = lax_cond(t7, t8, t10)";
  "t12 = 0.1e1 + t11";
  "t14 = p_a_zeta_threshold ** (0.1e1 / 0.3e1)";
  "t16 = t12 ** (0.1e1 / 0.3e1)";
  "t18 = lax_cond(t12 <= p_a_zeta_threshold, t14 * p_a_zeta_threshold, t16 * t12)";
  "t19 = r0 ** (0.1e1 / 0.3e1)";
  "t21 = 6 ** (0.1e1 / 0.3e1)";
  "t22 = t21 ** 2";
  "t23 = math.pi ** 2";
  "t24 = t23 ** (0.1e1 / 0.3e1)";
  "t26 = t22 / t24";
  "t27 = math.sqrt(s0)";
  "t29 = 2 ** (0.1e1 / 0.3e1)";
  "t31 = 0.1e1 / t19 / r0";
  "t36 = t26 * t27 * t29 * t31 / 0.12e2";
  "t37 = fd_int0(t36)";
  "t38 = math.log(t36)";
  "t40 = fd_int1(t36)";
  "t49 = lax_cond(r0 / 0.2e1 <= p_a_dens_threshold, 0, -0.3e1 / 0.8e1 * t3 / t4 * t18 * t19 * (0.1e1 - t26 * t27 * t29 * t31 * (t37 * t38 - t40) / 0.12e2))";
  "res = 0.2e1 * t49"]%b.

(* gen_repo/impl/prebuilt/pol/gga_x_ft97.py *)
Definition pol_gga_x_ft97 : list bstr := [
  "t2 = 3 ** (0.1e1 / 0.3e1)";
  "t3 = math.pi ** (0.1e1 / 0.3e1)";
  "t5 = t2 / t3";
  "t6 = r0 + r1";
  "t7 = 0.1e1 / t6";
  "t10 = 0.2e1 * r0 * t7 <= p_a_zeta_threshold";
  "t11 = p_a_zeta_threshold - 0.1e1";
  "t14 = 0.2e1 * r1 * t7 <= p_a_zeta_threshold";
  "t15 = -t11";
  "t17 = (r0 - r1) * t7";
  "t18 = lax_cond(t14, t15, t17)";
  "t19 = lax_cond(t10, t11, t18)";
  "t20 = 0.1e1 + t19";
  "t22 = p_a_zeta_threshold ** (0.1e1 / 0.3e1)";
  "t23 = t22 * p_a_zeta_threshold";
  "t24 = t20 ** (0.1e1 / 0.3e1)";
  "t26 = lax_cond(t20 <= p_a_zeta_threshold, t23, t24 * t20)";
  "t27 = t6 ** (0.1e1 / 0.3e1)";
  "t30 = r0 ** 2";
  "t31 = r0 ** (0.1e1 / 0.3e1)";
  "t32 = t31 ** 2";
  "t34 = 0.1e1 / t32 / t30";
  "t35 = 2 ** (0.1e1 / 0.3e1)";
  "t38 = t20 ** 2";
  "t39 = t6 ** 2";
  "t40 = t38 * t39";
  "t42 = (t20 * t6) ** (0.1e1 / 0.3e1)";
  "t43 = t42 ** 2";
  "t44 = s0 * t34";
  "t55 = params_a_beta0 + params_a_beta1 * s0 * t34 * t35 * t40 * t43 / (params_a_beta2 + t44 * t35 * t40 * t43 / 0.8e1) / 0.8e1";
  "t58 = t2 ** 2";
  "t60 = (0.1e1 / math.pi) ** (0.1e1 / 0.3e1)";
  "t62 = t58 / t60";
  "t63 = 4 ** (0.1e1 / 0.3e1)";
  "t64 = t55 ** 2";
  "t65 = math.asinh(t44)";
  "t66 = t65 ** 2";
  "t71 = math.sqrt(0.9e1 * t44 * t64 * t66 + 0.1e1)";
  "t81 = lax_cond(r0 <= p_a_dens_threshold, 0, -0.3e1 / 0.8e1 * t5 * t26 * t27 * (0.1e1 + 0.2e1 / 0.9e1 * t55 * s0 * t34 * t62 * t63 / t71))";
  "t83 = lax_cond(t10, t15, -t17)";
  "t84 = lax_cond(t14, t11, t83)";
  "t85 = 0.1e1 + t84";
  "t87 = t85 ** (0.1e1 / 0.3e1)";
  "t89 = lax_cond(t85 <= p_a_zeta_threshold, t23, t87 * t85)";
  "t92 = r1 ** 2";
  "t93 = r1 ** (0.1e1 / 0.3e1)";
  "t94 = t93 ** 2";
  "t96 = 0.1e1 / t94 / t92";
  "t99 = t85 ** 2";
  "t100 = t99 * t39";
  "t102 = (t85 * t6) ** (0.1e1 / 0.3e1)";
  "t103 = t102 ** 2";
  "t104 = s2 * t96";
  "t115 = params_a_beta0 + params_a_beta1 * s2 * t96 * t35 * t100 * t103 / (params_a_beta2 + t104 * t35 * t100 * t103 / 0.8e1) / 0.8e1";
  "t118 = t115 ** 2";
  "t119 = math.asinh(t104)";
  "t120 = t119 ** 2";
  "t125 = math.sqrt(0.9e1 * t104 * t118 * t120 + 0.1e1)";
  "t135 = lax_cond(r1 <= p_a_dens_threshold, 0, -0.3e1 / 0.8e1 * t5 * t89 * t27 * (0.1e1 + 0.2e1 / 0.9e1 * t115 * s2 * t96 * t62 * t63 / t125))";
  "res = t81 + t135"]%b.

(* gen_repo/impl/prebuilt/unpol/gga_x_ft97.py *)
Definition unpol_gga_x_ft97 : list bstr := [
  "t3 = 3 ** (0.1e1 / 0.3e1)";
  "t4 = math.pi ** (0.1e1 / 0.3e1)";
  "t7 = 0.1e1 <= p_a_zeta_threshold";
  "t8 = p_a_zeta_threshold - 0.1e1";
  "t10 = lax_cond(t7, -t8, 0)";
  "t11 = lax_cond(t7, t8, t10)";
  "t12 = 0.1e1 + t11";
  "t14 = p_a_zeta_threshold ** (0.1e1 / 0.3e1)";
  "t16 = t12 ** (0.1e1 / 0.3e1)";
  "t18 = lax_cond(t12 <= p_a_zeta_threshold, t14 * p_a_zeta_threshold, t16 * t12)";
  "t19 = r0 ** (0.1e1 / 0.3e1)";
  "t22 = t19 ** 2";
  "t23 = 0.1e1 / t22";
  "t25 = t12 ** 2";
  "t27 = (t12 * r0) ** (0.1e1 / 0.3e1)";
  "t28 = t27 ** 2";
  "t29 = t25 * t28";
  "t38 = params_a_beta0 + params_a_beta1 * s0 * t23 * t29 / (params_a_beta2 + s0 * t23 * t29 / 0.4e1) / 0.4e1";
  "t40 = 2 ** (0.1e1 / 0.3e1)";
  "t41 = t40 ** 2";
  "t42 = r0 ** 2";
  "t44 = 0.1e1 / t22 / t42";
  "t47 = t3 ** 2";
  "t49 = (0.1e1 / math.pi) ** (0.1e1 / 0.3e1)";
  "t52 = 4 ** (0.1e1 / 0.3e1)";
  "t53 = s0 * t41";
  "t54 = t38 ** 2";
  "t57 = math.asinh(t53 * t44)";
  "t58 = t57 ** 2";
  "t63 = math.sqrt(0.9e1 * t53 * t44 * t54 * t58 + 0.1e1)";
  "t73 = lax_cond(r0 / 0.2e1 <= p_a_dens_threshold, 0, -0.3e1 / 0.8e1 * t3 / t4 * t18 * t19 * (0.1e1 + 0.2e1 / 0.9e1 * t38 * s0 * t41 * t44 * t47 / t49 * t52 / t63))";
  "res = 0.2e1 * t73"]%b.

(* gen_repo/impl/prebuilt/pol/gga_x_g96.py *)
Definition pol_gga_x_g96 : list bstr := [
  "t2 = 3 ** (0.1e1 / 0.3e1)";
  "t3 = math.pi ** (0.1e1 / 0.3e1)";
  "t5 = t2 / t3";
  "t6 = r0 + r1";
  "t7 = 0.1e1 / t6";
  "t10 = 0.2e1 * r0 * t7 <= p_a_zeta_threshold";
  "t11 = p_a_zeta_threshold - 0.1e1";
  "t14 = 0.2e1 * r1 * t7 <= p_a_zeta_threshold";
  "t15 = -t11";
  "t17 = (r0 - r1) * t7";
  "t18 = lax_cond(t14, t15, t17)";
  "t19 = lax_cond(t10, t11, t18)";
  "t20 = 0.1e1 + t19";
  "t22 = p_a_zeta_threshold ** (0.1e1 / 0.3e1)";
  "t23 = t22 * p_a_zeta_threshold";
  "t24 = t20 ** (0.1e1 / 0.3e1)";
  "t26 = lax_cond(t20 <= p_a_zeta_threshold, t23, t24 * t20)";
  "t27 = t6 ** (0.1e1 / 0.3e1)";
  "t29 = t2 ** 2";
  "t31 = (0.1e1 / math.pi) ** (0.1e1 / 0.3e1)";
  "t33 = t29 / t31";
  "t34 = 4 ** (0.1e1 / 0.3e1)";
  "t35 = math.sqrt(s0)";
  "t36 = r0 ** (0.1e1 / 0.3e1)";
  "t39 = t35 / t36 / r0";
  "t40 = math.sqrt(t39)";
  "t49 = lax_cond(r0 <= p_a_dens_threshold, 0, -0.3e1 / 0.8e1 * t5 * t26 * t27 * (0.1e1 + 0.2e1 / 0.1233e4 * t33 * t34 * t40 * t39))";
  "t51 = lax_cond(t10, t15, -t17)";
  "t52 = lax_cond(t14, t11, t51)";
  "t53 = 0.1e1 + t52";
  "t55 = t53 ** (0.1e1 / 0.3e1)";
  "t57 = lax_cond(t53 <= p_a_zeta_threshold, t23, t55 * t53)";
  "t59 = math.sqrt(s2)";
  "t60 = r1 ** (0.1e1 / 0.3e1)";
  "t63 = t59 / t60 / r1";
  "t64 = math.sqrt(t63)";
  "t73 = lax_cond(r1 <= p_a_dens_threshold, 0, -0.3e1 / 0.8e1 * t5 * t57 * t27 * (0.1e1 + 0.2e1 / 0.1233e4 * t33 * t34 * t64 * t63))";
  "res = t49 + t73"]%b.

(* gen_repo/impl/prebuilt/unpol/gga_x_g96.py *)
Definition unpol_gga_x_g96 : list bstr := [
  "t3 = 3 ** (0.1e1 / 0.3e1)";
  "t4 = math.pi ** (0.1e1 / 0.3e1)";
  "t7 = 0.1e1 <= p_a_zeta_threshold";
  "t8 = p_a_zeta_threshold - 0.1e1";
  "t10 = lax_cond(t7, -t8, 0)";
  "t11 = lax_cond(t7, t8, t10)";
  "t12 = 0.1e1 + t11";
  "t14 = p_a_zeta_threshold ** (0.1e1 / 0.3e1)";
  "t16 = t12 ** (0.1e1 / 0.3e1)";
  "t18 = lax_cond(t12 <= p_a_zeta_threshold, t14 * p_a_zeta_threshold, t16 * t12)";
  "t19 = r0 ** (0.1e1 / 0.3e1)";
  "t21 = t3 ** 2";
  "t23 = (0.1e1 / math.pi) ** (0.1e1 / 0.3e1)";
  "t26 = 4 ** (0.1e1 / 0.3e1)";
  "t27 = math.sqrt(s0)";
  "t28 = 2 ** (0.1e1 / 0.3e1)";
  "t32 = t27 * t28 / t19 / r0";
  "t33 = math.sqrt(t32)";
  "t42 = lax_cond(r0 / 0.2e1 <= p_a_dens_threshold, 0, -0.3e1 / 0.8e1 * t3 / t4 * t18 * t19 * (0.1e1 + 0.2e1 / 0.1233e4 * t21 / t23 * t26 * t33 * t32))";
  "res = 0.2e1 * t42"]%b.

(* gen_repo/impl/prebuilt/pol/gga_x_gg99.py *)
Definition pol_gga_x_gg99 : list bstr := [
  "t2 = 3 ** (0.1e1 / 0.3e1)";
  "t3 = t2 ** 2";
  "t4 = math.pi ** (0.1e1 / 0.3e1)";
  "t7 = t3 / t4 / math.pi";
  "t8 = r0 + r1";
  "t9 = 0.1e1 / t8";
  "t12 = 0.2e1 * r0 * t9 <= p_a_zeta_threshold";
  "t13 = p_a_zeta_threshold - 0.1e1";
  "t16 = 0.2e1 * r1 * t9 <= p_a_zeta_threshold";
  "t17 = -t13";
  "t19 = (r0 - r1) * t9";
  "t20 = lax_cond(t16, t17, t19)";
  "t21 = lax_cond(t12, t13, t20)";
  "t22 = 0.1e1 + t21";
  "t24 = p_a_zeta_threshold ** (0.1e1 / 0.3e1)";
  "t25 = t24 * p_a_zeta_threshold";
  "t26 = t22 ** (0.1e1 / 0.3e1)";
  "t28 = lax_cond(t22 <= p_a_zeta_threshold, t25, t26 * t22)";
  "t29 = t8 ** (0.1e1 / 0.3e1)";
  "t32 = math.pi ** 2";
  "t33 = math.sqrt(s0)";
  "t34 = r0 ** (0.1e1 / 0.3e1)";
  "t37 = t33 / t34 / r0";
  "t38 = 4 ** (0.1e1 / 0.3e1)";
  "t39 = math.sqrt(0.3e1)";
  "t41 = t39 * t32 * math.pi";
  "t42 = t41 ** (0.1e1 / 0.3e1)";
  "t43 = t38 * t42";
  "t45 = 3 ** (0.1e1 / 0.4e1)";
  "t46 = math.sqrt(0.2e1)";
  "t48 = math.sqrt(math.pi)";
  "t51 = t45 * t46 / t48 / math.pi";
  "t52 = t43 - 0.1e-9";
  "t54 = lax_cond(t52 < t37, t52, t37)";
  "t55 = t54 ** 2";
  "t56 = 0.4e1 * t41";
  "t57 = t32 ** 2";
  "t58 = t57 * t32";
  "t59 = 0.48e2 * t58";
  "t60 = t55 ** 2";
  "t63 = math.sqrt(-t60 * t55 + t59)";
  "t64 = t56 + t63";
  "t65 = t64 ** (0.1e1 / 0.3e1)";
  "t66 = t65 ** 2";
  "t68 = math.sqrt(t55 + t66)";
  "t70 = t64 ** (0.1e1 / 0.6e1)";
  "t75 = math.asinh(t51 * t54 * t68 / t70 / 0.4e1)";
  "t76 = 0.1e1 / math.pi";
  "t77 = t43 + 0.1e-9";
  "t79 = lax_cond(t77 < t37, t37, t77)";
  "t80 = t79 ** 2";
  "t83 = 0.1e1 / t58";
  "t84 = t80 ** 2";
  "t89 = math.sqrt(0.3e1 * t83 * t84 * t80 - 0.144e3)";
  "t91 = math.atan(t89 / 0.12e2)";
  "t93 = math.cos(t91 / 0.3e1)";
  "t96 = math.sqrt(t80 * t79 * t39 * t76 * t93)";
  "t99 = math.asinh(t76 * t96 / 0.2e1)";
  "t100 = lax_cond(t37 < t43, t75, t99)";
  "t102 = math.exp(-0.2e1 * t100)";
  "t104 = math.log(0.1e1 + t102)";
  "t107 = my_dilog(-t102)";
  "t112 = 0.1e1 / math.cosh(t100)";
  "t113 = t112 ** (0.1e1 / 0.3e1)";
  "t114 = t113 ** 2";
  "t116 = t76 ** (0.1e1 / 0.3e1)";
  "t117 = 0.1e1 / t116";
  "t123 = lax_cond(r0 <= p_a_dens_threshold, 0, -t7 * t28 * t29 * (-0.12e2 * t100 * t104 + 0.12e2 * t107 + t32) / t100 / t114 * t117 * t38 / 0.24e2)";
  "t125 = lax_cond(t12, t17, -t19)";
  "t126 = lax_cond(t16, t13, t125)";
  "t127 = 0.1e1 + t126";
  "t129 = t127 ** (0.1e1 / 0.3e1)";
  "t131 = lax_cond(t127 <= p_a_zeta_threshold, t25, t129 * t127)";
  "t134 = math.sqrt(s2)";
  "t135 = r1 ** (0.1e1 / 0.3e1)";
  "t138 = t134 / t135 / r1";
  "t141 = lax_cond(t52 < t138, t52, t138)";
  "t142 = t141 ** 2";
  "t143 = t142 ** 2";
  "t146 = math.sqrt(-t143 * t142 + t59)";
  "t147 = t56 + t146";
  "t148 = t147 ** (0.1e1 / 0.3e1)";
  "t149 = t148 ** 2";
  "t151 = math.sqrt(t142 + t149)";
  "t153 = t147 ** (0.1e1 / 0.6e1)";
  "t158 = math.asinh(t51 * t141 * t151 / t153 / 0.4e1)";
  "t160 = lax_cond(t77 < t138, t138, t77)";
  "t161 = t160 ** 2";
  "t164 = t161 ** 2";
  "t169 = math.sqrt(0.3e1 * t83 * t164 * t161 - 0.144e3)";
  "t171 = math.atan(t169 / 0.12e2)";
  "t173 = math.cos(t171 / 0.3e1)";
  "t176 = math.sqrt(t161 * t160 * t39 * t76 * t173)";
  "t179 = math.asinh(t76 * t176 / 0.2e1)";
  "t180 = lax_cond(t138 < t43, t158, t179)";
  "t182 = math.exp(-0.2e1 * t180)";
  "t184 = math.log(0.1e1 + t182)";
  "t187 = my_dilog(-t182)";
  "t192 = 0.1e1 / math.cosh(t180)";
  "t193 = t192 ** (0.1e1 / 0.3e1)";
  "t194 = t193 ** 2";
  "t201 = lax_cond(r1 <= p_a_dens_threshold, 0, -t7 * t131 * t29 * (-0.12e2 * t180 * t184 + 0.12e2 * t187 + t32) / t180 / t194 * t117 * t38 / 0.24e2)";
  "res = t123 + t201"]%b.

(* gen_repo/impl/prebuilt/unpol/gga_x_gg99.py *)
Definition unpol_gga_x_gg99 : list bstr := [
  "t3 = 3 ** (0.1e1 / 0.3e1)";
  "t4 = t3 ** 2";
  "t5 = math.pi ** (0.1e1 / 0.3e1)";
  "t9 = 0.1e1 <= p_a_zeta_threshold";
  "t10 = p_a_zeta_threshold - 0.1e1";
  "t12 = lax_cond(t9, -t10, 0)";
  "t13 = lax_cond(t9, t10, t12)";
  "t14 = 0.1e1 + t13";
  "t16 = p_a_zeta_threshold ** (0.1e1 / 0.3e1)";
  "t18 = t14 ** (0.1e1 / 0.3e1)";
  "t20 = lax_cond(t14 <= p_a_zeta_threshold, t16 * p_a_zeta_threshold, t18 * t14)";
  "t21 = r0 ** (0.1e1 / 0.3e1)";
  "t24 = math.pi ** 2";
  "t25 = math.sqrt(s0)";
  "t26 = 2 ** (0.1e1 / 0.3e1)";
  "t30 = t25 * t26 / t21 / r0";
  "t31 = 4 ** (0.1e1 / 0.3e1)";
  "t32 = math.sqrt(0.3e1)";
  "t34 = t32 * t24 * math.pi";
  "t35 = t34 ** (0.1e1 / 0.3e1)";
  "t36 = t31 * t35";
  "t38 = 3 ** (0.1e1 / 0.4e1)";
  "t39 = math.sqrt(0.2e1)";
  "t41 = math.sqrt(math.pi)";
  "t45 = t36 - 0.1e-9";
  "t47 = lax_cond(t45 < t30, t45, t30)";
  "t48 = t47 ** 2";
  "t50 = t24 ** 2";
  "t51 = t50 * t24";
  "t53 = t48 ** 2";
  "t56 = math.sqrt(-t53 * t48 + 0.48e2 * t51)";
  "t57 = 0.4e1 * t34 + t56";
  "t58 = t57 ** (0.1e1 / 0.3e1)";
  "t59 = t58 ** 2";
  "t61 = math.sqrt(t48 + t59)";
  "t63 = t57 ** (0.1e1 / 0.6e1)";
  "t68 = math.asinh(t38 * t39 / t41 / math.pi * t47 * t61 / t63 / 0.4e1)";
  "t69 = 0.1e1 / math.pi";
  "t70 = t36 + 0.1e-9";
  "t72 = lax_cond(t70 < t30, t30, t70)";
  "t73 = t72 ** 2";
  "t77 = t73 ** 2";
  "t82 = math.sqrt(0.3e1 / t51 * t77 * t73 - 0.144e3)";
  "t84 = math.atan(t82 / 0.12e2)";
  "t86 = math.cos(t84 / 0.3e1)";
  "t89 = math.sqrt(t73 * t72 * t32 * t69 * t86)";
  "t92 = math.asinh(t69 * t89 / 0.2e1)";
  "t93 = lax_cond(t30 < t36, t68, t92)";
  "t95 = math.exp(-0.2e1 * t93)";
  "t97 = math.log(0.1e1 + t95)";
  "t100 = my_dilog(-t95)";
  "t105 = 0.1e1 / math.cosh(t93)";
  "t106 = t105 ** (0.1e1 / 0.3e1)";
  "t107 = t106 ** 2";
  "t109 = t69 ** (0.1e1 / 0.3e1)";
  "t116 = lax_cond(r0 / 0.2e1 <= p_a_dens_threshold, 0, -t4 / t5 / math.pi * t20 * t21 * (-0.12e2 * t93 * t97 + 0.12e2 * t100 + t24) / t93 / t107 / t109 * t31 / 0.24e2)";
  "res = 0.2e1 * t116"]%b.

(* gen_repo/impl/prebuilt/pol/gga_x_hcth_a.py *)
Definition pol_gga_x_hcth_a : list bstr := [
  "t2 = 3 ** (0.1e1 / 0.3e1)";
  "t3 = math.pi ** (0.1e1 / 0.3e1)";
  "t5 = t2 / t3";
  "t6 = r0 + r1";
  "t7 = 0.1e1 / t6";
  "t10 = 0.2e1 * r0 * t7 <= p_a_zeta_threshold";
  "t11 = p_a_zeta_threshold - 0.1e1";
  "t14 = 0.2e1 * r1 * t7 <= p_a_zeta_threshold";
  "t15 = -t11";
  "t17 = (r0 - r1) * t7";
  "t18 = lax_cond(t14, t15, t17)";
  "t19 = lax_cond(t10, t11, t18)";
  "t20 = 0.1e1 + t19";
  "t22 = p_a_zeta_threshold ** (0.1e1 / 0.3e1)";
  "t23 = t22 * p_a_zeta_threshold";
  "t24 = t20 ** (0.1e1 / 0.3e1)";
  "t26 = lax_cond(t20 <= p_a_zeta_threshold, t23, t24 * t20)";
  "t27 = t6 ** (0.1e1 / 0.3e1)";
  "t29 = t2 ** 2";
  "t31 = (0.1e1 / math.pi) ** (0.1e1 / 0.3e1)";
  "t34 = 4 ** (0.1e1 / 0.3e1)";
  "t35 = t29 / t31 * t34";
  "t36 = r0 ** 2";
  "t37 = r0 ** (0.1e1 / 0.3e1)";
  "t38 = t37 ** 2";
  "t42 = math.sqrt(s0)";
  "t45 = t42 / t37 / r0";
  "t46 = math.asinh(t45)";
  "t49 = 0.1e1 + 0.252e-1 * t45 * t46";
  "t52 = t49 ** 2";
  "t63 = lax_cond(r0 <= p_a_dens_threshold, 0, -0.3e1 / 0.8e1 * t5 * t26 * t27 * (0.109878e1 + 0.93333333333333333332e-3 * t35 * s0 / t38 / t36 * (-0.251173e1 / t49 + 0.37198333333333333333e1 / t52)))";
  "t65 = lax_cond(t10, t15, -t17)";
  "t66 = lax_cond(t14, t11, t65)";
  "t67 = 0.1e1 + t66";
  "t69 = t67 ** (0.1e1 / 0.3e1)";
  "t71 = lax_cond(t67 <= p_a_zeta_threshold, t23, t69 * t67)";
  "t73 = r1 ** 2";
  "t74 = r1 ** (0.1e1 / 0.3e1)";
  "t75 = t74 ** 2";
  "t79 = math.sqrt(s2)";
  "t82 = t79 / t74 / r1";
  "t83 = math.asinh(t82)";
  "t86 = 0.1e1 + 0.252e-1 * t82 * t83";
  "t89 = t86 ** 2";
  "t100 = lax_cond(r1 <= p_a_dens_threshold, 0, -0.3e1 / 0.8e1 * t5 * t71 * t27 * (0.109878e1 + 0.93333333333333333332e-3 * t35 * s2 / t75 / t73 * (-0.251173e1 / t86 + 0.37198333333333333333e1 / t89)))";
  "res = t63 + t100"]%b.

(* gen_repo/impl/prebuilt/unpol/gga_x_hcth_a.py *)
Definition unpol_gga_x_hcth_a : list bstr := [
  "t3 = 3 ** (0.1e1 / 0.3e1)";
  "t4 = math.pi ** (0.1e1 / 0.3e1)";
  "t7 = 0.1e1 <= p_a_zeta_threshold";
  "t8 = p_a_zeta_threshold - 0.1e1";
  "t10 = lax_cond(t7, -t8, 0)";
  "t11 = lax_cond(t7, t8, t10)";
  "t12 = 0.1e1 + t11";
  "t14 = p_a_zeta_threshold ** (0.1e1 / 0.3e1)";
  "t16 = t12 ** (0.1e1 / 0.3e1)";
  "t18 = lax_cond(t12 <= p_a_zeta_threshold, t14 * p_a_zeta_threshold, t16 * t12)";
  "t19 = r0 ** (0.1e1 / 0.3e1)";
  "t21 = t3 ** 2";
  "t23 = (0.1e1 / math.pi) ** (0.1e1 / 0.3e1)";
  "t26 = 4 ** (0.1e1 / 0.3e1)";
  "t28 = 2 ** (0.1e1 / 0.3e1)";
  "t29 = t28 ** 2";
  "t31 = r0 ** 2";
  "t32 = t19 ** 2";
  "t35 = math.sqrt(s0)";
  "t36 = t35 * t28";
  "t38 = 0.1e1 / t19 / r0";
  "t40 = math.asinh(t36 * t38)";
  "t44 = 0.1e1 + 0.252e-1 * t36 * t38 * t40";
  "t47 = t44 ** 2";
  "t59 = lax_cond(r0 / 0.2e1 <= p_a_dens_threshold, 0, -0.3e1 / 0.8e1 * t3 / t4 * t18 * t19 * (0.109878e1 + 0.93333333333333333332e-3 * t21 / t23 * t26 * s0 * t29 / t32 / t31 * (-0.251173e1 / t44 + 0.37198333333333333333e1 / t47)))";
  "res = 0.2e1 * t59"]%b.

(* gen_repo/impl/prebuilt/pol/gga_x_herman.py *)
Definition pol_gga_x_herman : list bstr := [
  "t2 = 3 ** (0.1e1 / 0.3e1)";
  "t3 = math.pi ** (0.1e1 / 0.3e1)";
  "t5 = t2 / t3";
  "t6 = r0 + r1";
  "t7 = 0.1e1 / t6";
  "t10 = 0.2e1 * r0 * t7 <= p_a_zeta_threshold";
  "t11 = p_a_zeta_threshold - 0.1e1";
  "t14 = 0.2e1 * r1 * t7 <= p_a_zeta_threshold";
  "t15 = -t11";
  "t17 = (r0 - r1) * t7";
  "t18 = lax_cond(t14, t15, t17)";
  "t19 = lax_cond(t10, t11, t18)";
  "t20 = 0.1e1 + t19";
  "t22 = p_a_zeta_threshold ** (0.1e1 / 0.3e1)";
  "t23 = t22 * p_a_zeta_threshold";
  "t24 = t20 ** (0.1e1 / 0.3e1)";
  "t26 = lax_cond(t20 <= p_a_zeta_threshold, t23, t24 * t20)";
  "t27 = t6 ** (0.1e1 / 0.3e1)";
  "t29 = t2 ** 2";
  "t31 = (0.1e1 / math.pi) ** (0.1e1 / 0.3e1)";
  "t33 = t29 / t31";
  "t34 = 4 ** (0.1e1 / 0.3e1)";
  "t36 = r0 ** 2";
  "t37 = r0 ** (0.1e1 / 0.3e1)";
  "t38 = t37 ** 2";
  "t48 = lax_cond(r0 <= p_a_dens_threshold, 0, -0.3e1 / 0.8e1 * t5 * t26 * t27 * (0.1e1 + 0.66666666666666666668e-3 * t33 * t34 * s0 / t38 / t36))";
  "t50 = lax_cond(t10, t15, -t17)";
  "t51 = lax_cond(t14, t11, t50)";
  "t52 = 0.1e1 + t51";
  "t54 = t52 ** (0.1e1 / 0.3e1)";
  "t56 = lax_cond(t52 <= p_a_zeta_threshold, t23, t54 * t52)";
  "t59 = r1 ** 2";
  "t60 = r1 ** (0.1e1 / 0.3e1)";
  "t61 = t60 ** 2";
  "t71 = lax_cond(r1 <= p_a_dens_threshold, 0, -0.3e1 / 0.8e1 * t5 * t56 * t27 * (0.1e1 + 0.66666666666666666668e-3 * t33 * t34 * s2 / t61 / t59))";
  "res = t48 + t71"]%b.

(* gen_repo/impl/prebuilt/unpol/gga_x_herman.py *)
Definition unpol_gga_x_herman : list bstr := [
  "t3 = 3 ** (0.1e1 / 0.3e1)";
  "t4 = math.pi ** (0.1e1 / 0.3e1)";
  "t7 = 0.1e1 <= p_a_zeta_threshold";
  "t8 = p_a_zeta_threshold - 0.1e1";
  "t10 = lax_cond(t7, -t8, 0)";
  "t11 = lax_cond(t7, t8, t10)";
  "t12 = 0.1e1 + t11";
  "t14 = p_a_zeta_threshold ** (0.1e1 / 0.3e1)";
  "t16 = t12 ** (0.1e1 / 0.3e1)";
  "t18 = lax_cond(t12 <= p_a_zeta_threshold, t14 * p_a_zeta_threshold, t16 * t12)";
  "t19 = r0 ** (0.1e1 / 0.3e1)";
  "t21 = t3 ** 2";
  "t23 = (0.1e1 / math.pi) ** (0.1e1 / 0.3e1)";
  "t26 = 4 ** (0.1e1 / 0.3e1)";
  "t28 = 2 ** (0.1e1 / 0.3e1)";
  "t29 = t28 ** 2";
  "t31 = r0 ** 2";
  "t32 = t19 ** 2";
  "t42 = lax_cond(r0 / 0.2e1 <= p_a_dens_threshold, 0, -0.3e1 / 0.8e1 * t3 / t4 * t18 * t19 * (0.1e1 + 0.66666666666666666668e-3 * t21 / t23 * t26 * s0 * t29 / t32 / t31))";
  "res = 0.2e1 * t42"]%b.

(* gen_repo/impl/prebuilt/pol/gga_x_hjs.py *)
Definition pol_gga_x_hjs : list bstr := [
  "t2 = 3 ** (0.1e1 / 0.3e1)";
  "t3 = math.pi ** (0.1e1 / 0.3e1)";
  "t5 = t2 / t3";
  "t6 = r0 + r1";
  "t7 = 0.1e1 / t6";
  "t10 = 0.2e1 * r0 * t7 <= p_a_zeta_threshold";
  "t11 = p_a_zeta_threshold - 0.1e1";
  "t14 = 0.2e1 * r1 * t7 <= p_a_zeta_threshold";
  "t15 = -t11";
  "t17 = (r0 - r1) * t7";
  "t18 = lax_cond(t14, t15, t17)";
  "t19 = lax_cond(t10, t11, t18)";
  "t20 = 0.1e1 + t19";
  "t22 = p_a_zeta_threshold ** (0.1e1 / 0.3e1)";
  "t23 = t22 * p_a_zeta_threshold";
  "t24 = t20 ** (0.1e1 / 0.3e1)";
  "t26 = lax_cond(t20 <= p_a_zeta_threshold, t23, t24 * t20)";
  "t27 = t6 ** (0.1e1 / 0.3e1)";
  "t29 = t2 ** 2";
  "t30 = p_a_cam_omega * t29";
  "t31 = math.pi ** 2";
  "t32 = t31 ** (0.1e1 / 0.3e1)";
  "t33 = 0.1e1 / t32";
  "t34 = t30 * t33";
  "t36 = 0.1e1 + t17 <= p_a_zeta_threshold";
  "t38 = 0.1e1 - t17 <= p_a_zeta_threshold";
  "t39 = lax_cond(t38, t15, t17)";
  "t40 = lax_cond(t36, t11, t39)";
  "t41 = 0.1e1 + t40";
  "t43 = t41 ** (0.1e1 / 0.3e1)";
  "t44 = lax_cond(t41 <= p_a_zeta_threshold, t22, t43)";
  "t45 = 0.1e1 / t44";
  "t46 = 0.1e1 / t27";
  "t47 = t45 * t46";
  "t48 = 6 ** (0.1e1 / 0.3e1)";
  "t49 = t32 ** 2";
  "t50 = 0.1e1 / t49";
  "t51 = t48 * t50";
  "t53 = r0 ** 2";
  "t54 = r0 ** (0.1e1 / 0.3e1)";
  "t55 = t54 ** 2";
  "t57 = 0.1e1 / t55 / t53";
  "t59 = params_a_a[0] * t48";
  "t61 = t50 * s0 * t57";
  "t65 = 0.1e1 / t31";
  "t66 = params_a_a[1] * t65";
  "t67 = math.sqrt(s0)";
  "t69 = t53 ** 2";
  "t71 = t67 * s0 / t69";
  "t75 = t48 ** 2";
  "t76 = params_a_a[2] * t75";
  "t78 = 0.1e1 / t32 / t31";
  "t79 = s0 ** 2";
  "t84 = t78 * t79 / t54 / t69 / r0";
  "t88 = params_a_a[3] * t48";
  "t90 = 0.1e1 / t49 / t31";
  "t96 = t90 * t67 * t79 / t55 / t69 / t53";
  "t100 = t31 ** 2";
  "t101 = 0.1e1 / t100";
  "t102 = params_a_a[4] * t101";
  "t103 = t79 * s0";
  "t104 = t69 ** 2";
  "t106 = t103 / t104";
  "t110 = params_a_a[5] * t75";
  "t112 = 0.1e1 / t32 / t100";
  "t118 = t112 * t67 * t103 / t54 / t104 / r0";
  "t124 = params_a_b[0] * t75";
  "t132 = params_a_b[1] * t48";
  "t136 = params_a_b[2] * t65";
  "t140 = params_a_b[3] * t75";
  "t144 = params_a_b[4] * t48";
  "t148 = params_a_b[5] * t101";
  "t152 = params_a_b[6] * t75";
  "t156 = params_a_b[7] * t48";
  "t158 = 0.1e1 / t49 / t100";
  "t159 = t79 ** 2";
  "t170 = params_a_b[8] / t100 / t31";
  "t181 = t51 * s0 * t57 * (t59 * t61 / 0.24e2 + t66 * t71 / 0.48e2 + t76 * t84 / 0.576e3 + t88 * t96 / 0.1152e4 + t102 * t106 / 0.2304e4 + t110 * t118 / 0.27648e5) / (0.1e1 + t124 * t33 * t67 / t54 / r0 / 0.12e2 + t132 * t61 / 0.24e2 + t136 * t71 / 0.48e2 + t140 * t84 / 0.576e3 + t144 * t96 / 0.1152e4 + t148 * t106 / 0.2304e4 + t152 * t118 / 0.27648e5 + t156 * t158 * t159 / t55 / t104 / t53 / 0.55296e5 + t170 * t67 * t159 / t104 / t69 / 0.110592e6) / 0.24e2";
  "t183 = lax_cond(0.1e-9 < t181, t181, 0.1e-9)";
  "t184 = p_a_cam_omega ** 2";
  "t185 = t184 * t2";
  "t186 = t44 ** 2";
  "t189 = t27 ** 2";
  "t190 = 0.1e1 / t189";
  "t192 = t185 * t50 / t186 * t190";
  "t194 = 0.609650e0 + t183 + t192 / 0.3e1";
  "t195 = math.sqrt(t194)";
  "t198 = t34 * t47 / t195";
  "t201 = 0.609650e0 + t183";
  "t205 = s0 * t57";
  "t214 = 0.1e1 + 0.13006513974354692214e-1 * t51 * t205 / (0.1e1 + t51 * t205 / 0.96e2) + 0.42141105276909202774e1 * t183";
  "t216 = t184 * p_a_cam_omega * t65";
  "t223 = t216 / t186 / t44 * t7 / t195 / t194";
  "t227 = t201 ** 2";
  "t234 = t227 * t201";
  "t236 = math.sqrt(t201)";
  "t238 = math.sqrt(math.pi)";
  "t239 = 0.4e1 / 0.5e1 * t238";
  "t240 = math.sqrt(t183)";
  "t245 = lax_cond(0.0e0 < 0.7572109999e0 + t183, 0.757211e0 + t183, 0.1e-9)";
  "t246 = math.sqrt(t245)";
  "t253 = t184 ** 2";
  "t256 = t253 * p_a_cam_omega * t2 * t90";
  "t257 = t186 ** 2";
  "t261 = 0.1e1 / t189 / t6";
  "t263 = t194 ** 2";
  "t275 = 0.3e1 * t192";
  "t277 = math.sqrt(0.9e1 * t183 + t275)";
  "t280 = math.sqrt(0.9e1 * t245 + t275)";
  "t288 = t30 * t33 * t45 * t46";
  "t293 = 0.1e1 / (t288 / 0.3e1 + t195)";
  "t295 = math.log((t288 / 0.3e1 + t277 / 0.3e1) * t293)";
  "t301 = math.log((t288 / 0.3e1 + t280 / 0.3e1) * t293)";
  "t308 = lax_cond(r0 <= p_a_dens_threshold, 0, -0.3e1 / 0.8e1 * t5 * t26 * t27 * (0.757211e0 + 0.47272888888888888889e-1 * (0.1e1 - t198 / 0.3e1) / t201 + 0.26366444444444444444e-1 * t214 * (0.2e1 - t198 + t223 / 0.3e1) / t227 - (0.47459600000000000000e-1 * t214 * t201 + 0.28363733333333333333e-1 * t227 - 0.90865320000000000000e0 * t234 - t236 * t234 * (t239 + 0.12e2 / 0.5e1 * t240 - 0.12e2 / 0.5e1 * t246)) * (0.8e1 - 0.5e1 * t198 + 0.10e2 / 0.3e1 * t223 - t256 / t257 / t44 * t261 / t195 / t263 / 0.3e1) / t234 / 0.9e1 + 0.2e1 / 0.3e1 * t34 * t47 * (t277 / 0.3e1 - t280 / 0.3e1) + 0.2e1 * t183 * t295 - 0.2e1 * t245 * t301))";
  "t310 = lax_cond(t10, t15, -t17)";
  "t311 = lax_cond(t14, t11, t310)";
  "t312 = 0.1e1 + t311";
  "t314 = t312 ** (0.1e1 / 0.3e1)";
  "t316 = lax_cond(t312 <= p_a_zeta_threshold, t23, t314 * t312)";
  "t318 = lax_cond(t36, t15, -t17)";
  "t319 = lax_cond(t38, t11, t318)";
  "t320 = 0.1e1 + t319";
  "t322 = t320 ** (0.1e1 / 0.3e1)";
  "t323 = lax_cond(t320 <= p_a_zeta_threshold, t22, t322)";
  "t324 = 0.1e1 / t323";
  "t325 = t324 * t46";
  "t327 = r1 ** 2";
  "t328 = r1 ** (0.1e1 / 0.3e1)";
  "t329 = t328 ** 2";
  "t331 = 0.1e1 / t329 / t327";
  "t333 = t50 * s2 * t331";
  "t336 = math.sqrt(s2)";
  "t338 = t327 ** 2";
  "t340 = t336 * s2 / t338";
  "t343 = s2 ** 2";
  "t348 = t78 * t343 / t328 / t338 / r1";
  "t356 = t90 * t336 * t343 / t329 / t338 / t327";
  "t359 = t343 * s2";
  "t360 = t338 ** 2";
  "t362 = t359 / t360";
  "t370 = t112 * t336 * t359 / t328 / t360 / r1";
  "t393 = t343 ** 2";
  "t411 = t51 * s2 * t331 * (t59 * t333 / 0.24e2 + t66 * t340 / 0.48e2 + t76 * t348 / 0.576e3 + t88 * t356 / 0.1152e4 + t102 * t362 / 0.2304e4 + t110 * t370 / 0.27648e5) / (0.1e1 + t124 * t33 * t336 / t328 / r1 / 0.12e2 + t132 * t333 / 0.24e2 + t136 * t340 / 0.48e2 + t140 * t348 / 0.576e3 + t144 * t356 / 0.1152e4 + t148 * t362 / 0.2304e4 + t152 * t370 / 0.27648e5 + t156 * t158 * t393 / t329 / t360 / t327 / 0.55296e5 + t170 * t336 * t393 / t360 / t338 / 0.110592e6) / 0.24e2";
  "t413 = lax_cond(0.1e-9 < t411, t411, 0.1e-9)";
  "t414 = t323 ** 2";
  "t418 = t185 * t50 / t414 * t190";
  "t420 = 0.609650e0 + t413 + t418 / 0.3e1";
  "t421 = math.sqrt(t420)";
  "t424 = t34 * t325 / t421";
  "t427 = 0.609650e0 + t413";
  "t431 = s2 * t331";
  "t440 = 0.1e1 + 0.13006513974354692214e-1 * t51 * t431 / (0.1e1 + t51 * t431 / 0.96e2) + 0.42141105276909202774e1 * t413";
  "t447 = t216 / t414 / t323 * t7 / t421 / t420";
  "t451 = t427 ** 2";
  "t458 = t451 * t427";
  "t460 = math.sqrt(t427)";
  "t462 = math.sqrt(t413)";
  "t467 = lax_cond(0.0e0 < 0.7572109999e0 + t413, 0.757211e0 + t413, 0.1e-9)";
  "t468 = math.sqrt(t467)";
  "t475 = t414 ** 2";
  "t479 = t420 ** 2";
  "t491 = 0.3e1 * t418";
  "t493 = math.sqrt(0.9e1 * t413 + t491)";
  "t496 = math.sqrt(0.9e1 * t467 + t491)";
  "t504 = t30 * t33 * t324 * t46";
  "t509 = 0.1e1 / (t504 / 0.3e1 + t421)";
  "t511 = math.log((t504 / 0.3e1 + t493 / 0.3e1) * t509)";
  "t517 = math.log((t504 / 0.3e1 + t496 / 0.3e1) * t509)";
  "t524 = lax_cond(r1 <= p_a_dens_threshold, 0, -0.3e1 / 0.8e1 * t5 * t316 * t27 * (0.757211e0 + 0.47272888888888888889e-1 * (0.1e1 - t424 / 0.3e1) / t427 + 0.26366444444444444444e-1 * t440 * (0.2e1 - t424 + t447 / 0.3e1) / t451 - (0.47459600000000000000e-1 * t440 * t427 + 0.28363733333333333333e-1 * t451 - 0.90865320000000000000e0 * t458 - t460 * t458 * (t239 + 0.12e2 / 0.5e1 * t462 - 0.12e2 / 0.5e1 * t468)) * (0.8e1 - 0.5e1 * t424 + 0.10e2 / 0.3e1 * t447 - t256 / t475 / t323 * t261 / t421 / t479 / 0.3e1) / t458 / 0.9e1 + 0.2e1 / 0.3e1 * t34 * t325 * (t493 / 0.3e1 - t496 / 0.3e1) + 0.2e1 * t413 * t511 - 0.2e1 * t467 * t517))";
  "res = t308 + t524"]%b.

(* gen_repo/impl/prebuilt/unpol/gga_x_hjs.py *)
Definition unpol_gga_x_hjs : list bstr := [
  "t3 = 3 ** (0.1e1 / 0.3e1)";
  "t4 = math.pi ** (0.1e1 / 0.3e1)";
  "t7 = 0.1e1 <= p_a_zeta_threshold";
  "t8 = p_a_zeta_threshold - 0.1e1";
  "t10 = lax_cond(t7, -t8, 0)";
  "t11 = lax_cond(t7, t8, t10)";
  "t12 = 0.1e1 + t11";
  "t13 = t12 <= p_a_zeta_threshold";
  "t14 = p_a_zeta_threshold ** (0.1e1 / 0.3e1)";
  "t16 = t12 ** (0.1e1 / 0.3e1)";
  "t18 = lax_cond(t13, t14 * p_a_zeta_threshold, t16 * t12)";
  "t19 = r0 ** (0.1e1 / 0.3e1)";
  "t21 = t3 ** 2";
  "t22 = p_a_cam_omega * t21";
  "t23 = math.pi ** 2";
  "t24 = t23 ** (0.1e1 / 0.3e1)";
  "t25 = 0.1e1 / t24";
  "t26 = t22 * t25";
  "t27 = lax_cond(t13, t14, t16)";
  "t28 = 0.1e1 / t27";
  "t29 = 0.1e1 / t19";
  "t30 = t28 * t29";
  "t31 = 6 ** (0.1e1 / 0.3e1)";
  "t32 = t24 ** 2";
  "t33 = 0.1e1 / t32";
  "t34 = t31 * t33";
  "t35 = t34 * s0";
  "t36 = 2 ** (0.1e1 / 0.3e1)";
  "t37 = t36 ** 2";
  "t38 = r0 ** 2";
  "t39 = t19 ** 2";
  "t41 = 0.1e1 / t39 / t38";
  "t42 = t37 * t41";
  "t47 = s0 * t37 * t41";
  "t51 = 0.1e1 / t23";
  "t53 = math.sqrt(s0)";
  "t55 = t38 ** 2";
  "t57 = t53 * s0 / t55";
  "t61 = t31 ** 2";
  "t64 = 0.1e1 / t24 / t23";
  "t66 = s0 ** 2";
  "t71 = t66 * t36 / t19 / t55 / r0";
  "t77 = 0.1e1 / t32 / t23";
  "t84 = t53 * t66 * t37 / t39 / t55 / t38";
  "t88 = t23 ** 2";
  "t89 = 0.1e1 / t88";
  "t91 = t66 * s0";
  "t92 = t55 ** 2";
  "t94 = t91 / t92";
  "t100 = 0.1e1 / t24 / t88";
  "t107 = t53 * t91 * t36 / t19 / t92 / r0";
  "t153 = t66 ** 2";
  "t176 = t35 * t42 * (params_a_a[0] * t31 * t33 * t47 / 0.24e2 + params_a_a[1] * t51 * t57 / 0.24e2 + params_a_a[2] * t61 * t64 * t71 / 0.288e3 + params_a_a[3] * t31 * t77 * t84 / 0.576e3 + params_a_a[4] * t89 * t94 / 0.576e3 + params_a_a[5] * t61 * t100 * t107 / 0.6912e4) / (0.1e1 + params_a_b[0] * t61 * t25 * t53 * t36 / t19 / r0 / 0.12e2 + params_a_b[1] * t31 * t33 * t47 / 0.24e2 + params_a_b[2] * t51 * t57 / 0.24e2 + params_a_b[3] * t61 * t64 * t71 / 0.288e3 + params_a_b[4] * t31 * t77 * t84 / 0.576e3 + params_a_b[5] * t89 * t94 / 0.576e3 + params_a_b[6] * t61 * t100 * t107 / 0.6912e4 + params_a_b[7] * t31 / t32 / t88 * t153 * t37 / t39 / t92 / t38 / 0.13824e5 + params_a_b[8] / t88 / t23 * t53 * t153 / t92 / t55 / 0.13824e5) / 0.24e2";
  "t178 = lax_cond(0.1e-9 < t176, t176, 0.1e-9)";
  "t179 = p_a_cam_omega ** 2";
  "t181 = t27 ** 2";
  "t186 = t179 * t3 * t33 / t181 / t39";
  "t188 = 0.609650e0 + t178 + t186 / 0.3e1";
  "t189 = math.sqrt(t188)";
  "t192 = t26 * t30 / t189";
  "t195 = 0.609650e0 + t178";
  "t207 = 0.1e1 + 0.13006513974354692214e-1 * t35 * t42 / (0.1e1 + t34 * t47 / 0.96e2) + 0.42141105276909202774e1 * t178";
  "t217 = t179 * p_a_cam_omega * t51 / t181 / t27 / r0 / t189 / t188";
  "t221 = t195 ** 2";
  "t228 = t221 * t195";
  "t230 = math.sqrt(t195)";
  "t232 = math.sqrt(math.pi)";
  "t234 = math.sqrt(t178)";
  "t239 = lax_cond(0.0e0 < 0.7572109999e0 + t178, 0.757211e0 + t178, 0.1e-9)";
  "t240 = math.sqrt(t239)";
  "t247 = t179 ** 2";
  "t251 = t181 ** 2";
  "t257 = t188 ** 2";
  "t269 = 0.3e1 * t186";
  "t271 = math.sqrt(0.9e1 * t178 + t269)";
  "t274 = math.sqrt(0.9e1 * t239 + t269)";
  "t282 = t22 * t25 * t28 * t29";
  "t287 = 0.1e1 / (t282 / 0.3e1 + t189)";
  "t289 = math.log((t282 / 0.3e1 + t271 / 0.3e1) * t287)";
  "t295 = math.log((t282 / 0.3e1 + t274 / 0.3e1) * t287)";
  "t302 = lax_cond(r0 / 0.2e1 <= p_a_dens_threshold, 0, -0.3e1 / 0.8e1 * t3 / t4 * t18 * t19 * (0.757211e0 + 0.47272888888888888889e-1 * (0.1e1 - t192 / 0.3e1) / t195 + 0.26366444444444444444e-1 * t207 * (0.2e1 - t192 + t217 / 0.3e1) / t221 - (0.47459600000000000000e-1 * t207 * t195 + 0.28363733333333333333e-1 * t221 - 0.90865320000000000000e0 * t228 - t230 * t228 * (0.4e1 / 0.5e1 * t232 + 0.12e2 / 0.5e1 * t234 - 0.12e2 / 0.5e1 * t240)) * (0.8e1 - 0.5e1 * t192 + 0.10e2 / 0.3e1 * t217 - t247 * p_a_cam_omega * t3 * t77 / t251 / t27 / t39 / r0 / t189 / t257 / 0.3e1) / t228 / 0.9e1 + 0.2e1 / 0.3e1 * t26 * t30 * (t271 / 0.3e1 - t274 / 0.3e1) + 0.2e1 * t178 * t289 - 0.2e1 * t239 * t295))";
  "res = 0.2e1 * t302"]%b.

(* gen_repo/impl/prebuilt/pol/gga_x_hjs_b88_v2.py *)
Definition pol_gga_x_hjs_b88_v2 : list bstr := [
  "t2 = 3 ** (0.1e1 / 0.3e1)";
  "t3 = math.pi ** (0.1e1 / 0.3e1)";
  "t5 = t2 / t3";
  "t6 = r0 + r1";
  "t7 = 0.1e1 / t6";
  "t10 = 0.2e1 * r0 * t7 <= p_a_zeta_threshold";
  "t11 = p_a_zeta_threshold - 0.1e1";
  "t14 = 0.2e1 * r1 * t7 <= p_a_zeta_threshold";
  "t15 = -t11";
  "t17 = (r0 - r1) * t7";
  "t18 = lax_cond(t14, t15, t17)";
  "t19 = lax_cond(t10, t11, t18)";
  "t20 = 0.1e1 + t19";
  "t22 = p_a_zeta_threshold ** (0.1e1 / 0.3e1)";
  "t23 = t22 * p_a_zeta_threshold";
  "t24 = t20 ** (0.1e1 / 0.3e1)";
  "t26 = lax_cond(t20 <= p_a_zeta_threshold, t23, t24 * t20)";
  "t27 = t6 ** (0.1e1 / 0.3e1)";
  "t29 = t2 ** 2";
  "t30 = p_a_cam_omega * t29";
  "t31 = math.pi ** 2";
  "t32 = t31 ** (0.1e1 / 0.3e1)";
  "t33 = 0.1e1 / t32";
  "t34 = t30 * t33";
  "t36 = 0.1e1 + t17 <= p_a_zeta_threshold";
  "t38 = 0.1e1 - t17 <= p_a_zeta_threshold";
  "t39 = lax_cond(t38, t15, t17)";
  "t40 = lax_cond(t36, t11, t39)";
  "t41 = 0.1e1 + t40";
  "t43 = t41 ** (0.1e1 / 0.3e1)";
  "t44 = lax_cond(t41 <= p_a_zeta_threshold, t22, t43)";
  "t45 = 0.1e1 / t44";
  "t46 = 0.1e1 / t27";
  "t47 = t45 * t46";
  "t48 = 6 ** (0.1e1 / 0.3e1)";
  "t49 = t48 ** 2";
  "t50 = t49 * t33";
  "t51 = math.sqrt(s0)";
  "t52 = r0 ** (0.1e1 / 0.3e1)";
  "t58 = math.exp(-t50 * t51 / t52 / r0 / 0.12e2)";
  "t59 = math.exp(20)";
  "t61 = 0.1e1 / (t59 - 0.1e1)";
  "t64 = 0.1e1 / (0.1e1 + t61)";
  "t66 = math.log((t58 + t61) * t64)";
  "t67 = t66 ** 2";
  "t68 = params_a_a[0]";
  "t70 = params_a_a[1]";
  "t71 = t67 * t66";
  "t73 = params_a_a[2]";
  "t74 = t67 ** 2";
  "t76 = params_a_a[3]";
  "t77 = t74 * t66";
  "t79 = params_a_a[4]";
  "t80 = t74 * t67";
  "t82 = params_a_a[5]";
  "t83 = t74 * t71";
  "t87 = params_a_b[0]";
  "t89 = params_a_b[1]";
  "t91 = params_a_b[2]";
  "t93 = params_a_b[3]";
  "t95 = params_a_b[4]";
  "t97 = params_a_b[5]";
  "t99 = params_a_b[6]";
  "t101 = params_a_b[7]";
  "t102 = t74 ** 2";
  "t104 = params_a_b[8]";
  "t109 = t67 * (t68 * t67 - t70 * t71 + t73 * t74 - t76 * t77 + t79 * t80 - t82 * t83) / (-t104 * t102 * t66 + t101 * t102 - t87 * t66 + t89 * t67 - t91 * t71 + t93 * t74 - t95 * t77 + t97 * t80 - t99 * t83 + 0.1e1)";
  "t111 = lax_cond(0.1e-9 < t109, t109, 0.1e-9)";
  "t112 = p_a_cam_omega ** 2";
  "t113 = t112 * t2";
  "t114 = t32 ** 2";
  "t115 = 0.1e1 / t114";
  "t116 = t44 ** 2";
  "t119 = t27 ** 2";
  "t120 = 0.1e1 / t119";
  "t122 = t113 * t115 / t116 * t120";
  "t124 = 0.609650e0 + t111 + t122 / 0.3e1";
  "t125 = math.sqrt(t124)";
  "t128 = t34 * t47 / t125";
  "t131 = 0.609650e0 + t111";
  "t141 = 0.1e1 + 0.31215633538451261314e0 * t67 / (0.1e1 + t67 / 0.4e1) + 0.42141105276909202774e1 * t111";
  "t144 = t112 * p_a_cam_omega / t31";
  "t151 = t144 / t116 / t44 * t7 / t125 / t124";
  "t155 = t131 ** 2";
  "t162 = t155 * t131";
  "t164 = math.sqrt(t131)";
  "t166 = math.sqrt(math.pi)";
  "t167 = 0.4e1 / 0.5e1 * t166";
  "t168 = math.sqrt(t111)";
  "t173 = lax_cond(0.0e0 < 0.7572109999e0 + t111, 0.757211e0 + t111, 0.1e-9)";
  "t174 = math.sqrt(t173)";
  "t181 = t112 ** 2";
  "t186 = t181 * p_a_cam_omega * t2 / t114 / t31";
  "t187 = t116 ** 2";
  "t191 = 0.1e1 / t119 / t6";
  "t193 = t124 ** 2";
  "t205 = 0.3e1 * t122";
  "t207 = math.sqrt(0.9e1 * t111 + t205)";
  "t210 = math.sqrt(0.9e1 * t173 + t205)";
  "t218 = t30 * t33 * t45 * t46";
  "t223 = 0.1e1 / (t218 / 0.3e1 + t125)";
  "t225 = math.log((t218 / 0.3e1 + t207 / 0.3e1) * t223)";
  "t231 = math.log((t218 / 0.3e1 + t210 / 0.3e1) * t223)";
  "t238 = lax_cond(r0 <= p_a_dens_threshold, 0, -0.3e1 / 0.8e1 * t5 * t26 * t27 * (0.757211e0 + 0.47272888888888888889e-1 * (0.1e1 - t128 / 0.3e1) / t131 + 0.26366444444444444444e-1 * t141 * (0.2e1 - t128 + t151 / 0.3e1) / t155 - (0.47459600000000000000e-1 * t141 * t131 + 0.28363733333333333333e-1 * t155 - 0.90865320000000000000e0 * t162 - t164 * t162 * (t167 + 0.12e2 / 0.5e1 * t168 - 0.12e2 / 0.5e1 * t174)) * (0.8e1 - 0.5e1 * t128 + 0.10e2 / 0.3e1 * t151 - t186 / t187 / t44 * t191 / t125 / t193 / 0.3e1) / t162 / 0.9e1 + 0.2e1 / 0.3e1 * t34 * t47 * (t207 / 0.3e1 - t210 / 0.3e1) + 0.2e1 * t111 * t225 - 0.2e1 * t173 * t231))";
  "t240 = lax_cond(t10, t15, -t17)";
  "t241 = lax_cond(t14, t11, t240)";
  "t242 = 0.1e1 + t241";
  "t244 = t242 ** (0.1e1 / 0.3e1)";
  "t246 = lax_cond(t242 <= p_a_zeta_threshold, t23, t244 * t242)";
  "t248 = lax_cond(t36, t15, -t17)";
  "t249 = lax_cond(t38, t11, t248)";
  "t250 = 0.1e1 + t249";
  "t252 = t250 ** (0.1e1 / 0.3e1)";
  "t253 = lax_cond(t250 <= p_a_zeta_threshold, t22, t252)";
  "t254 = 0.1e1 / t253";
  "t255 = t254 * t46";
  "t256 = math.sqrt(s2)";
  "t257 = r1 ** (0.1e1 / 0.3e1)";
  "t263 = math.exp(-t50 * t256 / t257 / r1 / 0.12e2)";
  "t266 = math.log((t263 + t61) * t64)";
  "t267 = t266 ** 2";
  "t269 = t267 * t266";
  "t271 = t267 ** 2";
  "t273 = t271 * t266";
  "t275 = t271 * t267";
  "t277 = t271 * t269";
  "t288 = t271 ** 2";
  "t294 = t267 * (t68 * t267 - t70 * t269 + t73 * t271 - t76 * t273 + t79 * t275 - t82 * t277) / (-t104 * t288 * t266 + t101 * t288 - t87 * t266 + t89 * t267 - t91 * t269 + t93 * t271 - t95 * t273 + t97 * t275 - t99 * t277 + 0.1e1)";
  "t296 = lax_cond(0.1e-9 < t294, t294, 0.1e-9)";
  "t297 = t253 ** 2";
  "t301 = t113 * t115 / t297 * t120";
  "t303 = 0.609650e0 + t296 + t301 / 0.3e1";
  "t304 = math.sqrt(t303)";
  "t307 = t34 * t255 / t304";
  "t310 = 0.609650e0 + t296";
  "t320 = 0.1e1 + 0.31215633538451261314e0 * t267 / (0.1e1 + t267 / 0.4e1) + 0.42141105276909202774e1 * t296";
  "t327 = t144 / t297 / t253 * t7 / t304 / t303";
  "t331 = t310 ** 2";
  "t338 = t331 * t310";
  "t340 = math.sqrt(t310)";
  "t342 = math.sqrt(t296)";
  "t347 = lax_cond(0.0e0 < 0.7572109999e0 + t296, 0.757211e0 + t296, 0.1e-9)";
  "t348 = math.sqrt(t347)";
  "t355 = t297 ** 2";
  "t359 = t303 ** 2";
  "t371 = 0.3e1 * t301";
  "t373 = math.sqrt(0.9e1 * t296 + t371)";
  "t376 = math.sqrt(0.9e1 * t347 + t371)";
  "t384 = t30 * t33 * t254 * t46";
  "t389 = 0.1e1 / (t384 / 0.3e1 + t304)";
  "t391 = math.log((t384 / 0.3e1 + t373 / 0.3e1) * t389)";
  "t397 = math.log((t384 / 0.3e1 + t376 / 0.3e1) * t389)";
  "t404 = lax_cond(r1 <= p_a_dens_threshold, 0, -0.3e1 / 0.8e1 * t5 * t246 * t27 * (0.757211e0 + 0.47272888888888888889e-1 * (0.1e1 - t307 / 0.3e1) / t310 + 0.26366444444444444444e-1 * t320 * (0.2e1 - t307 + t327 / 0.3e1) / t331 - (0.47459600000000000000e-1 * t320 * t310 + 0.28363733333333333333e-1 * t331 - 0.90865320000000000000e0 * t338 - t340 * t338 * (t167 + 0.12e2 / 0.5e1 * t342 - 0.12e2 / 0.5e1 * t348)) * (0.8e1 - 0.5e1 * t307 + 0.10e2 / 0.3e1 * t327 - t186 / t355 / t253 * t191 / t304 / t359 / 0.3e1) / t338 / 0.9e1 + 0.2e1 / 0.3e1 * t34 * t255 * (t373 / 0.3e1 - t376 / 0.3e1) + 0.2e1 * t296 * t391 - 0.2e1 * t347 * t397))";
  "res = t238 + t404"]%b.

(* gen_repo/impl/prebuilt/unpol/gga_x_hjs_b88_v2.py *)
Definition unpol_gga_x_hjs_b88_v2 : list bstr := [
  "t3 = 3 ** (0.1e1 / 0.3e1)";
  "t4 = math.pi ** (0.1e1 / 0.3e1)";
  "t7 = 0.1e1 <= p_a_zeta_threshold";
  "t8 = p_a_zeta_threshold - 0.1e1";
  "t10 = lax_cond(t7, -t8, 0)";
  "t11 = lax_cond(t7, t8, t10)";
  "t12 = 0.1e1 + t11";
  "t13 = t12 <= p_a_zeta_threshold";
  "t14 = p_a_zeta_threshold ** (0.1e1 / 0.3e1)";
  "t16 = t12 ** (0.1e1 / 0.3e1)";
  "t18 = lax_cond(t13, t14 * p_a_zeta_threshold, t16 * t12)";
  "t19 = r0 ** (0.1e1 / 0.3e1)";
  "t21 = t3 ** 2";
  "t22 = p_a_cam_omega * t21";
  "t23 = math.pi ** 2";
  "t24 = t23 ** (0.1e1 / 0.3e1)";
  "t25 = 0.1e1 / t24";
  "t26 = t22 * t25";
  "t27 = lax_cond(t13, t14, t16)";
  "t28 = 0.1e1 / t27";
  "t29 = 0.1e1 / t19";
  "t30 = t28 * t29";
  "t31 = 6 ** (0.1e1 / 0.3e1)";
  "t32 = t31 ** 2";
  "t34 = math.sqrt(s0)";
  "t35 = 2 ** (0.1e1 / 0.3e1)";
  "t42 = math.exp(-t32 * t25 * t34 * t35 / t19 / r0 / 0.12e2)";
  "t43 = math.exp(20)";
  "t45 = 0.1e1 / (t43 - 0.1e1)";
  "t50 = math.log((t42 + t45) / (0.1e1 + t45))";
  "t51 = t50 ** 2";
  "t55 = t51 * t50";
  "t58 = t51 ** 2";
  "t61 = t58 * t50";
  "t64 = t58 * t51";
  "t67 = t58 * t55";
  "t86 = t58 ** 2";
  "t93 = t51 * (params_a_a[0] * t51 - params_a_a[1] * t55 + params_a_a[2] * t58 - params_a_a[3] * t61 + params_a_a[4] * t64 - params_a_a[5] * t67) / (-params_a_b[8] * t86 * t50 - params_a_b[0] * t50 + params_a_b[1] * t51 - params_a_b[2] * t55 + params_a_b[3] * t58 - params_a_b[4] * t61 + params_a_b[5] * t64 - params_a_b[6] * t67 + params_a_b[7] * t86 + 0.1e1)";
  "t95 = lax_cond(0.1e-9 < t93, t93, 0.1e-9)";
  "t96 = p_a_cam_omega ** 2";
  "t98 = t24 ** 2";
  "t100 = t27 ** 2";
  "t103 = t19 ** 2";
  "t106 = t96 * t3 / t98 / t100 / t103";
  "t108 = 0.609650e0 + t95 + t106 / 0.3e1";
  "t109 = math.sqrt(t108)";
  "t112 = t26 * t30 / t109";
  "t115 = 0.609650e0 + t95";
  "t125 = 0.1e1 + 0.31215633538451261314e0 * t51 / (0.1e1 + t51 / 0.4e1) + 0.42141105276909202774e1 * t95";
  "t136 = t96 * p_a_cam_omega / t23 / t100 / t27 / r0 / t109 / t108";
  "t140 = t115 ** 2";
  "t147 = t140 * t115";
  "t149 = math.sqrt(t115)";
  "t151 = math.sqrt(math.pi)";
  "t153 = math.sqrt(t95)";
  "t158 = lax_cond(0.0e0 < 0.7572109999e0 + t95, 0.757211e0 + t95, 0.1e-9)";
  "t159 = math.sqrt(t158)";
  "t166 = t96 ** 2";
  "t172 = t100 ** 2";
  "t178 = t108 ** 2";
  "t190 = 0.3e1 * t106";
  "t192 = math.sqrt(0.9e1 * t95 + t190)";
  "t195 = math.sqrt(0.9e1 * t158 + t190)";
  "t203 = t22 * t25 * t28 * t29";
  "t208 = 0.1e1 / (t203 / 0.3e1 + t109)";
  "t210 = math.log((t203 / 0.3e1 + t192 / 0.3e1) * t208)";
  "t216 = math.log((t203 / 0.3e1 + t195 / 0.3e1) * t208)";
  "t223 = lax_cond(r0 / 0.2e1 <= p_a_dens_threshold, 0, -0.3e1 / 0.8e1 * t3 / t4 * t18 * t19 * (0.757211e0 + 0.47272888888888888889e-1 * (0.1e1 - t112 / 0.3e1) / t115 + 0.26366444444444444444e-1 * t125 * (0.2e1 - t112 + t136 / 0.3e1) / t140 - (0.47459600000000000000e-1 * t125 * t115 + 0.28363733333333333333e-1 * t140 - 0.90865320000000000000e0 * t147 - t149 * t147 * (0.4e1 / 0.5e1 * t151 + 0.12e2 / 0.5e1 * t153 - 0.12e2 / 0.5e1 * t159)) * (0.8e1 - 0.5e1 * t112 + 0.10e2 / 0.3e1 * t136 - t166 * p_a_cam_omega * t3 / t98 / t23 / t172 / t27 / t103 / r0 / t109 / t178 / 0.3e1) / t147 / 0.9e1 + 0.2e1 / 0.3e1 * t26 * t30 * (t192 / 0.3e1 - t195 / 0.3e1) + 0.2e1 * t95 * t210 - 0.2e1 * t158 * t216))";
  "res = 0.2e1 * t223"]%b.

(* gen_repo/impl/prebuilt/pol/gga_x_htbs.py *)
Definition pol_gga_x_htbs : list bstr := [
  "t2 = 3 ** (0.1e1 / 0.3e1)";
  "t3 = math.pi ** (0.1e1 / 0.3e1)";
  "t5 = t2 / t3";
  "t6 = r0 + r1";
  "t7 = 0.1e1 / t6";
  "t10 = 0.2e1 * r0 * t7 <= p_a_zeta_threshold";
  "t11 = p_a_zeta_threshold - 0.1e1";
  "t14 = 0.2e1 * r1 * t7 <= p_a_zeta_threshold";
  "t15 = -t11";
  "t17 = (r0 - r1) * t7";
  "t18 = lax_cond(t14, t15, t17)";
  "t19 = lax_cond(t10, t11, t18)";
  "t20 = 0.1e1 + t19";
  "t22 = p_a_zeta_threshold ** (0.1e1 / 0.3e1)";
  "t23 = t22 * p_a_zeta_threshold";
  "t24 = t20 ** (0.1e1 / 0.3e1)";
  "t26 = lax_cond(t20 <= p_a_zeta_threshold, t23, t24 * t20)";
  "t27 = t6 ** (0.1e1 / 0.3e1)";
  "t29 = 6 ** (0.1e1 / 0.3e1)";
  "t30 = t29 ** 2";
  "t31 = math.pi ** 2";
  "t32 = t31 ** (0.1e1 / 0.3e1)";
  "t34 = t30 / t32";
  "t35 = math.sqrt(s0)";
  "t36 = r0 ** (0.1e1 / 0.3e1)";
  "t40 = t34 * t35 / t36 / r0";
  "t41 = t40 / 0.12e2";
  "t43 = t32 ** 2";
  "t44 = 0.1e1 / t43";
  "t45 = t29 * t44";
  "t46 = r0 ** 2";
  "t47 = t36 ** 2";
  "t49 = 0.1e1 / t47 / t46";
  "t50 = s0 * t49";
  "t51 = t45 * t50";
  "t54 = math.exp(-t51 / 0.24e2)";
  "t60 = t30 / t32 / t31";
  "t61 = s0 ** 2";
  "t62 = t46 ** 2";
  "t67 = t60 * t61 / t36 / t62 / r0";
  "t70 = math.log(0.1e1 + 0.13780328706878157639e-4 * t67)";
  "t74 = 0.18040e1 - 0.64641600e0 / (0.8040e0 + 0.5e1 / 0.972e3 * t51 + 0.40024242767108462450e-2 * t45 * t50 * t54 + t70)";
  "t76 = t31 * t29";
  "t81 = math.exp(-0.11526490914032134466e-2 * t76 * t44 * s0 * t49)";
  "t83 = 0.18040e1 - 0.8040e0 * t81";
  "t84 = 0.19012500000000000000e0 * t40";
  "t85 = 0.19500000000000000000e0 * t51";
  "t86 = 0.1e1 / t31";
  "t91 = 0.86979166666666666668e-1 * t86 * t35 * s0 / t62";
  "t92 = 0.26041666666666666667e-2 * t67";
  "t95 = t29 / t43 / t31";
  "t102 = 0.16276041666666666667e-3 * t95 * t35 * t61 / t47 / t62 / t46";
  "t108 = lax_cond(0.26e1 < t41, t83, (-0.40608000000000000000e0 + t84 - t85 + t91 - t92 + t102) * t83 + (0.14060800000000000000e1 - t84 + t85 - t91 + t92 - t102) * t74)";
  "t109 = lax_cond(t41 < 0.6e0, t74, t108)";
  "t113 = lax_cond(r0 <= p_a_dens_threshold, 0, -0.3e1 / 0.8e1 * t5 * t26 * t27 * t109)";
  "t115 = lax_cond(t10, t15, -t17)";
  "t116 = lax_cond(t14, t11, t115)";
  "t117 = 0.1e1 + t116";
  "t119 = t117 ** (0.1e1 / 0.3e1)";
  "t121 = lax_cond(t117 <= p_a_zeta_threshold, t23, t119 * t117)";
  "t123 = math.sqrt(s2)";
  "t124 = r1 ** (0.1e1 / 0.3e1)";
  "t128 = t34 * t123 / t124 / r1";
  "t129 = t128 / 0.12e2";
  "t131 = r1 ** 2";
  "t132 = t124 ** 2";
  "t134 = 0.1e1 / t132 / t131";
  "t135 = s2 * t134";
  "t136 = t45 * t135";
  "t139 = math.exp(-t136 / 0.24e2)";
  "t143 = s2 ** 2";
  "t144 = t131 ** 2";
  "t149 = t60 * t143 / t124 / t144 / r1";
  "t152 = math.log(0.1e1 + 0.13780328706878157639e-4 * t149)";
  "t156 = 0.18040e1 - 0.64641600e0 / (0.8040e0 + 0.5e1 / 0.972e3 * t136 + 0.40024242767108462450e-2 * t45 * t135 * t139 + t152)";
  "t162 = math.exp(-0.11526490914032134466e-2 * t76 * t44 * s2 * t134)";
  "t164 = 0.18040e1 - 0.8040e0 * t162";
  "t165 = 0.19012500000000000000e0 * t128";
  "t166 = 0.19500000000000000000e0 * t136";
  "t171 = 0.86979166666666666668e-1 * t86 * t123 * s2 / t144";
  "t172 = 0.26041666666666666667e-2 * t149";
  "t179 = 0.16276041666666666667e-3 * t95 * t123 * t143 / t132 / t144 / t131";
  "t185 = lax_cond(0.26e1 < t129, t164, (-0.40608000000000000000e0 + t165 - t166 + t171 - t172 + t179) * t164 + (0.14060800000000000000e1 - t165 + t166 - t171 + t172 - t179) * t156)";
  "t186 = lax_cond(t129 < 0.6e0, t156, t185)";
  "t190 = lax_cond(r1 <= p_a_dens_threshold, 0, -0.3e1 / 0.8e1 * t5 * t121 * t27 * t186)";
  "res = t113 + t190"]%b.

(* gen_repo/impl/prebuilt/unpol/gga_x_htbs.py *)
Definition unpol_gga_x_htbs : list bstr := [
  "t3 = 3 ** (0.1e1 / 0.3e1)";
  "t4 = math.pi ** (0.1e1 / 0.3e1)";
  "t7 = 0.1e1 <= p_a_zeta_threshold";
  "t8 = p_a_zeta_threshold - 0.1e1";
  "t10 = lax_cond(t7, -t8, 0)";
  "t11 = lax_cond(t7, t8, t10)";
  "t12 = 0.1e1 + t11";
  "t14 = p_a_zeta_threshold ** (0.1e1 / 0.3e1)";
  "t16 = t12 ** (0.1e1 / 0.3e1)";
  "t18 = lax_cond(t12 <= p_a_zeta_threshold, t14 * p_a_zeta_threshold, t16 * t12)";
  "t19 = r0 ** (0.1e1 / 0.3e1)";
  "t21 = 6 ** (0.1e1 / 0.3e1)";
  "t22 = t21 ** 2";
  "t23 = math.pi ** 2";
  "t24 = t23 ** (0.1e1 / 0.3e1)";
  "t27 = math.sqrt(s0)";
  "t28 = 2 ** (0.1e1 / 0.3e1)";
  "t33 = t22 / t24 * t27 * t28 / t19 / r0";
  "t34 = t33 / 0.12e2";
  "t36 = t24 ** 2";
  "t37 = 0.1e1 / t36";
  "t38 = t21 * t37";
  "t39 = t28 ** 2";
  "t41 = r0 ** 2";
  "t42 = t19 ** 2";
  "t44 = 0.1e1 / t42 / t41";
  "t45 = s0 * t39 * t44";
  "t46 = t38 * t45";
  "t51 = math.exp(-t46 / 0.24e2)";
  "t58 = s0 ** 2";
  "t60 = t41 ** 2";
  "t65 = t22 / t24 / t23 * t58 * t28 / t19 / t60 / r0";
  "t68 = math.log(0.1e1 + 0.27560657413756315278e-4 * t65)";
  "t72 = 0.18040e1 - 0.64641600e0 / (0.8040e0 + 0.5e1 / 0.972e3 * t46 + 0.40024242767108462450e-2 * t38 * s0 * t39 * t44 * t51 + t68)";
  "t78 = math.exp(-0.11526490914032134466e-2 * t23 * t21 * t37 * t45)";
  "t80 = 0.18040e1 - 0.8040e0 * t78";
  "t81 = 0.19012500000000000000e0 * t33";
  "t82 = 0.19500000000000000000e0 * t46";
  "t88 = 0.17395833333333333334e0 / t23 * t27 * s0 / t60";
  "t89 = 0.52083333333333333334e-2 * t65";
  "t100 = 0.32552083333333333334e-3 * t21 / t36 / t23 * t27 * t58 * t39 / t42 / t60 / t41";
  "t106 = lax_cond(0.26e1 < t34, t80, (-0.40608000000000000000e0 + t81 - t82 + t88 - t89 + t100) * t80 + (0.14060800000000000000e1 - t81 + t82 - t88 + t89 - t100) * t72)";
  "t107 = lax_cond(t34 < 0.6e0, t72, t106)";
  "t111 = lax_cond(r0 / 0.2e1 <= p_a_dens_threshold, 0, -0.3e1 / 0.8e1 * t3 / t4 * t18 * t19 * t107)";
  "res = 0.2e1 * t111"]%b.

(* gen_repo/impl/prebuilt/pol/gga_x_ityh.py *)
Definition pol_gga_x_ityh : list bstr := [
  "t2 = 3 ** (0.1e1 / 0.3e1)";
  "t3 = math.pi ** (0.1e1 / 0.3e1)";
  "t5 = t2 / t3";
  "t6 = r0 + r1";
  "t7 = 0.1e1 / t6";
  "t10 = 0.2e1 * r0 * t7 <= p_a_zeta_threshold";
  "t11 = p_a_zeta_threshold - 0.1e1";
  "t14 = 0.2e1 * r1 * t7 <= p_a_zeta_threshold";
  "t15 = -t11";
  "t17 = (r0 - r1) * t7";
  "t18 = lax_cond(t14, t15, t17)";
  "t19 = lax_cond(t10, t11, t18)";
  "t20 = 0.1e1 + t19";
  "t22 = p_a_zeta_threshold ** (0.1e1 / 0.3e1)";
  "t23 = t22 * p_a_zeta_threshold";
  "t24 = t20 ** (0.1e1 / 0.3e1)";
  "t26 = lax_cond(t20 <= p_a_zeta_threshold, t23, t24 * t20)";
  "t28 = t6 ** (0.1e1 / 0.3e1)";
  "t29 = t2 ** 2";
  "t30 = math.pi * t29";
  "t32 = (0.1e1 / math.pi) ** (0.1e1 / 0.3e1)";
  "t33 = 0.1e1 / t32";
  "t34 = 4 ** (0.1e1 / 0.3e1)";
  "t35 = t33 * t34";
  "t37 = t29 * t33 * t34";
  "t38 = r0 ** 2";
  "t39 = r0 ** (0.1e1 / 0.3e1)";
  "t40 = t39 ** 2";
  "t44 = math.sqrt(s0)";
  "t47 = t44 / t39 / r0";
  "t48 = math.asinh(t47)";
  "t56 = 0.1e1 + 0.93333333333333333332e-3 * t37 * s0 / t40 / t38 / (0.1e1 + 0.2520e-1 * t47 * t48)";
  "t60 = math.sqrt(t30 * t35 / t56)";
  "t63 = 2 ** (0.1e1 / 0.3e1)";
  "t65 = (t20 * t6) ** (0.1e1 / 0.3e1)";
  "t69 = p_a_cam_omega / t60 * t63 / t65 / 0.2e1";
  "t71 = 0.135e1 < t69";
  "t72 = lax_cond(t71, t69, 0.135e1)";
  "t73 = t72 ** 2";
  "t76 = t73 ** 2";
  "t79 = t76 * t73";
  "t82 = t76 ** 2";
  "t94 = t82 ** 2";
  "t98 = lax_cond(t71, 0.135e1, t69)";
  "t99 = math.sqrt(math.pi)";
  "t102 = math.erf(0.1e1 / t98 / 0.2e1)";
  "t104 = t98 ** 2";
  "t107 = math.exp(-0.1e1 / t104 / 0.4e1)";
  "t118 = lax_cond(0.135e1 <= t69, 0.1e1 / t73 / 0.36e2 - 0.1e1 / t76 / 0.960e3 + 0.1e1 / t79 / 0.26880e5 - 0.1e1 / t82 / 0.829440e6 + 0.1e1 / t82 / t73 / 0.28385280e8 - 0.1e1 / t82 / t76 / 0.1073479680e10 + 0.1e1 / t82 / t79 / 0.44590694400e11 - 0.1e1 / t94 / 0.2021444812800e13, 0.1e1 - 0.8e1 / 0.3e1 * t98 * (t99 * t102 + 0.2e1 * t98 * (t107 - 0.3e1 / 0.2e1 - 0.2e1 * t104 * (t107 - 0.1e1))))";
  "t123 = lax_cond(r0 <= p_a_dens_threshold, 0, -0.3e1 / 0.8e1 * t5 * t26 * t28 * t118 * t56)";
  "t125 = lax_cond(t10, t15, -t17)";
  "t126 = lax_cond(t14, t11, t125)";
  "t127 = 0.1e1 + t126";
  "t129 = t127 ** (0.1e1 / 0.3e1)";
  "t131 = lax_cond(t127 <= p_a_zeta_threshold, t23, t129 * t127)";
  "t133 = r1 ** 2";
  "t134 = r1 ** (0.1e1 / 0.3e1)";
  "t135 = t134 ** 2";
  "t139 = math.sqrt(s2)";
  "t142 = t139 / t134 / r1";
  "t143 = math.asinh(t142)";
  "t151 = 0.1e1 + 0.93333333333333333332e-3 * t37 * s2 / t135 / t133 / (0.1e1 + 0.2520e-1 * t142 * t143)";
  "t155 = math.sqrt(t30 * t35 / t151)";
  "t159 = (t127 * t6) ** (0.1e1 / 0.3e1)";
  "t163 = p_a_cam_omega / t155 * t63 / t159 / 0.2e1";
  "t165 = 0.135e1 < t163";
  "t166 = lax_cond(t165, t163, 0.135e1)";
  "t167 = t166 ** 2";
  "t170 = t167 ** 2";
  "t173 = t170 * t167";
  "t176 = t170 ** 2";
  "t188 = t176 ** 2";
  "t192 = lax_cond(t165, 0.135e1, t163)";
  "t195 = math.erf(0.1e1 / t192 / 0.2e1)";
  "t197 = t192 ** 2";
  "t200 = math.exp(-0.1e1 / t197 / 0.4e1)";
  "t211 = lax_cond(0.135e1 <= t163, 0.1e1 / t167 / 0.36e2 - 0.1e1 / t170 / 0.960e3 + 0.1e1 / t173 / 0.26880e5 - 0.1e1 / t176 / 0.829440e6 + 0.1e1 / t176 / t167 / 0.28385280e8 - 0.1e1 / t176 / t170 / 0.1073479680e10 + 0.1e1 / t176 / t173 / 0.44590694400e11 - 0.1e1 / t188 / 0.2021444812800e13, 0.1e1 - 0.8e1 / 0.3e1 * t192 * (t99 * t195 + 0.2e1 * t192 * (t200 - 0.3e1 / 0.2e1 - 0.2e1 * t197 * (t200 - 0.1e1))))";
  "t216 = lax_cond(r1 <= p_a_dens_threshold, 0, -0.3e1 / 0.8e1 * t5 * t131 * t28 * t211 * t151)";
  "res = t123 + t216"]%b.

(* gen_repo/impl/prebuilt/unpol/gga_x_ityh.py *)
Definition unpol_gga_x_ityh : list bstr := [
  "t3 = 3 ** (0.1e1 / 0.3e1)";
  "t4 = math.pi ** (0.1e1 / 0.3e1)";
  "t7 = 0.1e1 <= p_a_zeta_threshold";
  "t8 = p_a_zeta_threshold - 0.1e1";
  "t10 = lax_cond(t7, -t8, 0)";
  "t11 = lax_cond(t7, t8, t10)";
  "t12 = 0.1e1 + t11";
  "t14 = p_a_zeta_threshold ** (0.1e1 / 0.3e1)";
  "t16 = t12 ** (0.1e1 / 0.3e1)";
  "t18 = lax_cond(t12 <= p_a_zeta_threshold, t14 * p_a_zeta_threshold, t16 * t12)";
  "t20 = r0 ** (0.1e1 / 0.3e1)";
  "t21 = t3 ** 2";
  "t24 = (0.1e1 / math.pi) ** (0.1e1 / 0.3e1)";
  "t25 = 0.1e1 / t24";
  "t26 = 4 ** (0.1e1 / 0.3e1)";
  "t30 = 2 ** (0.1e1 / 0.3e1)";
  "t31 = t30 ** 2";
  "t33 = r0 ** 2";
  "t34 = t20 ** 2";
  "t37 = math.sqrt(s0)";
  "t38 = t37 * t30";
  "t40 = 0.1e1 / t20 / r0";
  "t42 = math.asinh(t38 * t40)";
  "t52 = 0.1e1 + 0.93333333333333333332e-3 * t21 * t25 * t26 * s0 * t31 / t34 / t33 / (0.1e1 + 0.2520e-1 * t38 * t40 * t42)";
  "t56 = math.sqrt(math.pi * t21 * t25 * t26 / t52)";
  "t60 = (t12 * r0) ** (0.1e1 / 0.3e1)";
  "t64 = p_a_cam_omega / t56 * t30 / t60 / 0.2e1";
  "t66 = 0.135e1 < t64";
  "t67 = lax_cond(t66, t64, 0.135e1)";
  "t68 = t67 ** 2";
  "t71 = t68 ** 2";
  "t74 = t71 * t68";
  "t77 = t71 ** 2";
  "t89 = t77 ** 2";
  "t93 = lax_cond(t66, 0.135e1, t64)";
  "t94 = math.sqrt(math.pi)";
  "t97 = math.erf(0.1e1 / t93 / 0.2e1)";
  "t99 = t93 ** 2";
  "t102 = math.exp(-0.1e1 / t99 / 0.4e1)";
  "t113 = lax_cond(0.135e1 <= t64, 0.1e1 / t68 / 0.36e2 - 0.1e1 / t71 / 0.960e3 + 0.1e1 / t74 / 0.26880e5 - 0.1e1 / t77 / 0.829440e6 + 0.1e1 / t77 / t68 / 0.28385280e8 - 0.1e1 / t77 / t71 / 0.1073479680e10 + 0.1e1 / t77 / t74 / 0.44590694400e11 - 0.1e1 / t89 / 0.2021444812800e13, 0.1e1 - 0.8e1 / 0.3e1 * t93 * (t94 * t97 + 0.2e1 * t93 * (t102 - 0.3e1 / 0.2e1 - 0.2e1 * t99 * (t102 - 0.1e1))))";
  "t118 = lax_cond(r0 / 0.2e1 <= p_a_dens_threshold, 0, -0.3e1 / 0.8e1 * t3 / t4 * t18 * t20 * t113 * t52)";
  "res = 0.2e1 * t118"]%b.

(* gen_repo/impl/prebuilt/pol/gga_x_ityh_optx.py *)
Definition pol_gga_x_ityh_optx : list bstr := [
  "t2 = 3 ** (0.1e1 / 0.3e1)";
  "t3 = math.pi ** (0.1e1 / 0.3e1)";
  "t5 = t2 / t3";
  "t6 = r0 + r1";
  "t7 = 0.1e1 / t6";
  "t10 = 0.2e1 * r0 * t7 <= p_a_zeta_threshold";
  "t11 = p_a_zeta_threshold - 0.1e1";
  "t14 = 0.2e1 * r1 * t7 <= p_a_zeta_threshold";
  "t15 = -t11";
  "t17 = (r0 - r1) * t7";
  "t18 = lax_cond(t14, t15, t17)";
  "t19 = lax_cond(t10, t11, t18)";
  "t20 = 0.1e1 + t19";
  "t22 = p_a_zeta_threshold ** (0.1e1 / 0.3e1)";
  "t23 = t22 * p_a_zeta_threshold";
  "t24 = t20 ** (0.1e1 / 0.3e1)";
  "t26 = lax_cond(t20 <= p_a_zeta_threshold, t23, t24 * t20)";
  "t28 = t6 ** (0.1e1 / 0.3e1)";
  "t29 = t2 ** 2";
  "t30 = math.pi * t29";
  "t32 = (0.1e1 / math.pi) ** (0.1e1 / 0.3e1)";
  "t34 = 4 ** (0.1e1 / 0.3e1)";
  "t35 = 0.1e1 / t32 * t34";
  "t36 = s0 ** 2";
  "t38 = r0 ** 2";
  "t39 = t38 ** 2";
  "t41 = r0 ** (0.1e1 / 0.3e1)";
  "t44 = t41 ** 2";
  "t50 = (0.1e1 + 0.60e1 * s0 / t44 / t38) ** 2";
  "t55 = params_a_a + 0.3600e2 * params_a_b * t36 / t41 / t39 / r0 / t50";
  "t59 = math.sqrt(t30 * t35 / t55)";
  "t62 = 2 ** (0.1e1 / 0.3e1)";
  "t64 = (t20 * t6) ** (0.1e1 / 0.3e1)";
  "t68 = p_a_cam_omega / t59 * t62 / t64 / 0.2e1";
  "t70 = 0.135e1 < t68";
  "t71 = lax_cond(t70, t68, 0.135e1)";
  "t72 = t71 ** 2";
  "t75 = t72 ** 2";
  "t78 = t75 * t72";
  "t81 = t75 ** 2";
  "t93 = t81 ** 2";
  "t97 = lax_cond(t70, 0.135e1, t68)";
  "t98 = math.sqrt(math.pi)";
  "t101 = math.erf(0.1e1 / t97 / 0.2e1)";
  "t103 = t97 ** 2";
  "t106 = math.exp(-0.1e1 / t103 / 0.4e1)";
  "t117 = lax_cond(0.135e1 <= t68, 0.1e1 / t72 / 0.36e2 - 0.1e1 / t75 / 0.960e3 + 0.1e1 / t78 / 0.26880e5 - 0.1e1 / t81 / 0.829440e6 + 0.1e1 / t81 / t72 / 0.28385280e8 - 0.1e1 / t81 / t75 / 0.1073479680e10 + 0.1e1 / t81 / t78 / 0.44590694400e11 - 0.1e1 / t93 / 0.2021444812800e13, 0.1e1 - 0.8e1 / 0.3e1 * t97 * (t98 * t101 + 0.2e1 * t97 * (t106 - 0.3e1 / 0.2e1 - 0.2e1 * t103 * (t106 - 0.1e1))))";
  "t122 = lax_cond(r0 <= p_a_dens_threshold, 0, -0.3e1 / 0.8e1 * t5 * t26 * t28 * t117 * t55)";
  "t124 = lax_cond(t10, t15, -t17)";
  "t125 = lax_cond(t14, t11, t124)";
  "t126 = 0.1e1 + t125";
  "t128 = t126 ** (0.1e1 / 0.3e1)";
  "t130 = lax_cond(t126 <= p_a_zeta_threshold, t23, t128 * t126)";
  "t132 = s2 ** 2";
  "t134 = r1 ** 2";
  "t135 = t134 ** 2";
  "t137 = r1 ** (0.1e1 / 0.3e1)";
  "t140 = t137 ** 2";
  "t146 = (0.1e1 + 0.60e1 * s2 / t140 / t134) ** 2";
  "t151 = params_a_a + 0.3600e2 * params_a_b * t132 / t137 / t135 / r1 / t146";
  "t155 = math.sqrt(t30 * t35 / t151)";
  "t159 = (t126 * t6) ** (0.1e1 / 0.3e1)";
  "t163 = p_a_cam_omega / t155 * t62 / t159 / 0.2e1";
  "t165 = 0.135e1 < t163";
  "t166 = lax_cond(t165, t163, 0.135e1)";
  "t167 = t166 ** 2";
  "t170 = t167 ** 2";
  "t173 = t170 * t167";
  "t176 = t170 ** 2";
  "t188 = t176 ** 2";
  "t192 = lax_cond(t165, 0.135e1, t163)";
  "t195 = math.erf(0.1e1 / t192 / 0.2e1)";
  "t197 = t192 ** 2";
  "t200 = math.exp(-0.1e1 / t197 / 0.4e1)";
  "t211 = lax_cond(0.135e1 <= t163, 0.1e1 / t167 / 0.36e2 - 0.1e1 / t170 / 0.960e3 + 0.1e1 / t173 / 0.26880e5 - 0.1e1 / t176 / 0.829440e6 + 0.1e1 / t176 / t167 / 0.28385280e8 - 0.1e1 / t176 / t170 / 0.1073479680e10 + 0.1e1 / t176 / t173 / 0.44590694400e11 - 0.1e1 / t188 / 0.2021444812800e13, 0.1e1 - 0.8e1 / 0.3e1 * t192 * (t98 * t195 + 0.2e1 * t192 * (t200 - 0.3e1 / 0.2e1 - 0.2e1 * t197 * (t200 - 0.1e1))))";
  "t216 = lax_cond(r1 <= p_a_dens_threshold, 0, -0.3e1 / 0.8e1 * t5 * t130 * t28 * t211 * t151)";
  "res = t122 + t216"]%b.

(* gen_repo/impl/prebuilt/unpol/gga_x_ityh_optx.py *)
Definition unpol_gga_x_ityh_optx : list bstr := [
  "t3 = 3 ** (0.1e1 / 0.3e1)";
  "t4 = math.pi ** (0.1e1 / 0.3e1)";
  "t7 = 0.1e1 <= p_a_zeta_threshold";
  "t8 = p_a_zeta_threshold - 0.1e1";
  "t10 = lax_cond(t7, -t8, 0)";
  "t11 = lax_cond(t7, t8, t10)";
  "t12 = 0.1e1 + t11";
  "t14 = p_a_zeta_threshold ** (0.1e1 / 0.3e1)";
  "t16 = t12 ** (0.1e1 / 0.3e1)";
  "t18 = lax_cond(t12 <= p_a_zeta_threshold, t14 * p_a_zeta_threshold, t16 * t12)";
  "t20 = r0 ** (0.1e1 / 0.3e1)";
  "t21 = t3 ** 2";
  "t24 = (0.1e1 / math.pi) ** (0.1e1 / 0.3e1)";
  "t26 = 4 ** (0.1e1 / 0.3e1)";
  "t28 = s0 ** 2";
  "t30 = 2 ** (0.1e1 / 0.3e1)";
  "t31 = r0 ** 2";
  "t32 = t31 ** 2";
  "t37 = t30 ** 2";
  "t39 = t20 ** 2";
  "t45 = (0.1e1 + 0.60e1 * s0 * t37 / t39 / t31) ** 2";
  "t50 = params_a_a + 0.7200e2 * params_a_b * t28 * t30 / t20 / t32 / r0 / t45";
  "t54 = math.sqrt(math.pi * t21 / t24 * t26 / t50)";
  "t58 = (t12 * r0) ** (0.1e1 / 0.3e1)";
  "t62 = p_a_cam_omega / t54 * t30 / t58 / 0.2e1";
  "t64 = 0.135e1 < t62";
  "t65 = lax_cond(t64, t62, 0.135e1)";
  "t66 = t65 ** 2";
  "t69 = t66 ** 2";
  "t72 = t69 * t66";
  "t75 = t69 ** 2";
  "t87 = t75 ** 2";
  "t91 = lax_cond(t64, 0.135e1, t62)";
  "t92 = math.sqrt(math.pi)";
  "t95 = math.erf(0.1e1 / t91 / 0.2e1)";
  "t97 = t91 ** 2";
  "t100 = math.exp(-0.1e1 / t97 / 0.4e1)";
  "t111 = lax_cond(0.135e1 <= t62, 0.1e1 / t66 / 0.36e2 - 0.1e1 / t69 / 0.960e3 + 0.1e1 / t72 / 0.26880e5 - 0.1e1 / t75 / 0.829440e6 + 0.1e1 / t75 / t66 / 0.28385280e8 - 0.1e1 / t75 / t69 / 0.1073479680e10 + 0.1e1 / t75 / t72 / 0.44590694400e11 - 0.1e1 / t87 / 0.2021444812800e13, 0.1e1 - 0.8e1 / 0.3e1 * t91 * (t92 * t95 + 0.2e1 * t91 * (t100 - 0.3e1 / 0.2e1 - 0.2e1 * t97 * (t100 - 0.1e1))))";
  "t116 = lax_cond(r0 / 0.2e1 <= p_a_dens_threshold, 0, -0.3e1 / 0.8e1 * t3 / t4 * t18 * t20 * t111 * t50)";
  "res = 0.2e1 * t116"]%b.

(* gen_repo/impl/prebuilt/pol/gga_x_ityh_pbe.py *)
Definition pol_gga_x_ityh_pbe : list bstr := [
  "t2 = 3 ** (0.1e1 / 0.3e1)";
  "t3 = math.pi ** (0.1e1 / 0.3e1)";
  "t5 = t2 / t3";
  "t6 = r0 + r1";
  "t7 = 0.1e1 / t6";
  "t10 = 0.2e1 * r0 * t7 <= p_a_zeta_threshold";
  "t11 = p_a_zeta_threshold - 0.1e1";
  "t14 = 0.2e1 * r1 * t7 <= p_a_zeta_threshold";
  "t15 = -t11";
  "t17 = (r0 - r1) * t7";
  "t18 = lax_cond(t14, t15, t17)";
  "t19 = lax_cond(t10, t11, t18)";
  "t20 = 0.1e1 + t19";
  "t22 = p_a_zeta_threshold ** (0.1e1 / 0.3e1)";
  "t23 = t22 * p_a_zeta_threshold";
  "t24 = t20 ** (0.1e1 / 0.3e1)";
  "t26 = lax_cond(t20 <= p_a_zeta_threshold, t23, t24 * t20)";
  "t28 = t6 ** (0.1e1 / 0.3e1)";
  "t29 = t2 ** 2";
  "t30 = math.pi * t29";
  "t32 = (0.1e1 / math.pi) ** (0.1e1 / 0.3e1)";
  "t34 = 4 ** (0.1e1 / 0.3e1)";
  "t35 = 0.1e1 / t32 * t34";
  "t36 = 6 ** (0.1e1 / 0.3e1)";
  "t37 = params_a_mu * t36";
  "t38 = math.pi ** 2";
  "t39 = t38 ** (0.1e1 / 0.3e1)";
  "t40 = t39 ** 2";
  "t41 = 0.1e1 / t40";
  "t43 = r0 ** 2";
  "t44 = r0 ** (0.1e1 / 0.3e1)";
  "t45 = t44 ** 2";
  "t56 = 0.1e1 + params_a_kappa * (0.1e1 - params_a_kappa / (params_a_kappa + t37 * t41 * s0 / t45 / t43 / 0.24e2))";
  "t60 = math.sqrt(t30 * t35 / t56)";
  "t63 = 2 ** (0.1e1 / 0.3e1)";
  "t65 = (t20 * t6) ** (0.1e1 / 0.3e1)";
  "t69 = p_a_cam_omega / t60 * t63 / t65 / 0.2e1";
  "t71 = 0.135e1 < t69";
  "t72 = lax_cond(t71, t69, 0.135e1)";
  "t73 = t72 ** 2";
  "t76 = t73 ** 2";
  "t79 = t76 * t73";
  "t82 = t76 ** 2";
  "t94 = t82 ** 2";
  "t98 = lax_cond(t71, 0.135e1, t69)";
  "t99 = math.sqrt(math.pi)";
  "t102 = math.erf(0.1e1 / t98 / 0.2e1)";
  "t104 = t98 ** 2";
  "t107 = math.exp(-0.1e1 / t104 / 0.4e1)";
  "t118 = lax_cond(0.135e1 <= t69, 0.1e1 / t73 / 0.36e2 - 0.1e1 / t76 / 0.960e3 + 0.1e1 / t79 / 0.26880e5 - 0.1e1 / t82 / 0.829440e6 + 0.1e1 / t82 / t73 / 0.28385280e8 - 0.1e1 / t82 / t76 / 0.1073479680e10 + 0.1e1 / t82 / t79 / 0.44590694400e11 - 0.1e1 / t94 / 0.2021444812800e13, 0.1e1 - 0.8e1 / 0.3e1 * t98 * (t99 * t102 + 0.2e1 * t98 * (t107 - 0.3e1 / 0.2e1 - 0.2e1 * t104 * (t107 - 0.1e1))))";
  "t123 = lax_cond(r0 <= p_a_dens_threshold, 0, -0.3e1 / 0.8e1 * t5 * t26 * t28 * t118 * t56)";
  "t125 = lax_cond(t10, t15, -t17)";
  "t126 = lax_cond(t14, t11, t125)";
  "t127 = 0.1e1 + t126";
  "t129 = t127 ** (0.1e1 / 0.3e1)";
  "t131 = lax_cond(t127 <= p_a_zeta_threshold, t23, t129 * t127)";
  "t134 = r1 ** 2";
  "t135 = r1 ** (0.1e1 / 0.3e1)";
  "t136 = t135 ** 2";
  "t147 = 0.1e1 + params_a_kappa * (0.1e1 - params_a_kappa / (params_a_kappa + t37 * t41 * s2 / t136 / t134 / 0.24e2))";
  "t151 = math.sqrt(t30 * t35 / t147)";
  "t155 = (t127 * t6) ** (0.1e1 / 0.3e1)";
  "t159 = p_a_cam_omega / t151 * t63 / t155 / 0.2e1";
  "t161 = 0.135e1 < t159";
  "t162 = lax_cond(t161, t159, 0.135e1)";
  "t163 = t162 ** 2";
  "t166 = t163 ** 2";
  "t169 = t166 * t163";
  "t172 = t166 ** 2";
  "t184 = t172 ** 2";
  "t188 = lax_cond(t161, 0.135e1, t159)";
  "t191 = math.erf(0.1e1 / t188 / 0.2e1)";
  "t193 = t188 ** 2";
  "t196 = math.exp(-0.1e1 / t193 / 0.4e1)";
  "t207 = lax_cond(0.135e1 <= t159, 0.1e1 / t163 / 0.36e2 - 0.1e1 / t166 / 0.960e3 + 0.1e1 / t169 / 0.26880e5 - 0.1e1 / t172 / 0.829440e6 + 0.1e1 / t172 / t163 / 0.28385280e8 - 0.1e1 / t172 / t166 / 0.1073479680e10 + 0.1e1 / t172 / t169 / 0.44590694400e11 - 0.1e1 / t184 / 0.2021444812800e13, 0.1e1 - 0.8e1 / 0.3e1 * t188 * (t99 * t191 + 0.2e1 * t188 * (t196 - 0.3e1 / 0.2e1 - 0.2e1 * t193 * (t196 - 0.1e1))))";
  "t212 = lax_cond(r1 <= p_a_dens_threshold, 0, -0.3e1 / 0.8e1 * t5 * t131 * t28 * t207 * t147)";
  "res = t123 + t212"]%b.

(* gen_repo/impl/prebuilt/unpol/gga_x_ityh_pbe.py *)
Definition unpol_gga_x_ityh_pbe : list bstr := [
  "t3 = 3 ** (0.1e1 / 0.3e1)";
  "t4 = math.pi ** (0.1e1 / 0.3e1)";
  "t7 = 0.1e1 <= p_a_zeta_threshold";
  "t8 = p_a_zeta_threshold - 0.1e1";
  "t10 = lax_cond(t7, -t8, 0)";
  "t11 = lax_cond(t7, t8, t10)";
  "t12 = 0.1e1 + t11";
  "t14 = p_a_zeta_threshold ** (0.1e1 / 0.3e1)";
  "t16 = t12 ** (0.1e1 / 0.3e1)";
  "t18 = lax_cond(t12 <= p_a_zeta_threshold, t14 * p_a_zeta_threshold, t16 * t12)";
  "t20 = r0 ** (0.1e1 / 0.3e1)";
  "t21 = t3 ** 2";
  "t24 = (0.1e1 / math.pi) ** (0.1e1 / 0.3e1)";
  "t26 = 4 ** (0.1e1 / 0.3e1)";
  "t28 = 6 ** (0.1e1 / 0.3e1)";
  "t30 = math.pi ** 2";
  "t31 = t30 ** (0.1e1 / 0.3e1)";
  "t32 = t31 ** 2";
  "t35 = 2 ** (0.1e1 / 0.3e1)";
  "t36 = t35 ** 2";
  "t38 = r0 ** 2";
  "t39 = t20 ** 2";
  "t50 = 0.1e1 + params_a_kappa * (0.1e1 - params_a_kappa / (params_a_kappa + params_a_mu * t28 / t32 * s0 * t36 / t39 / t38 / 0.24e2))";
  "t54 = math.sqrt(math.pi * t21 / t24 * t26 / t50)";
  "t58 = (t12 * r0) ** (0.1e1 / 0.3e1)";
  "t62 = p_a_cam_omega / t54 * t35 / t58 / 0.2e1";
  "t64 = 0.135e1 < t62";
  "t65 = lax_cond(t64, t62, 0.135e1)";
  "t66 = t65 ** 2";
  "t69 = t66 ** 2";
  "t72 = t69 * t66";
  "t75 = t69 ** 2";
  "t87 = t75 ** 2";
  "t91 = lax_cond(t64, 0.135e1, t62)";
  "t92 = math.sqrt(math.pi)";
  "t95 = math.erf(0.1e1 / t91 / 0.2e1)";
  "t97 = t91 ** 2";
  "t100 = math.exp(-0.1e1 / t97 / 0.4e1)";
  "t111 = lax_cond(0.135e1 <= t62, 0.1e1 / t66 / 0.36e2 - 0.1e1 / t69 / 0.960e3 + 0.1e1 / t72 / 0.26880e5 - 0.1e1 / t75 / 0.829440e6 + 0.1e1 / t75 / t66 / 0.28385280e8 - 0.1e1 / t75 / t69 / 0.1073479680e10 + 0.1e1 / t75 / t72 / 0.44590694400e11 - 0.1e1 / t87 / 0.2021444812800e13, 0.1e1 - 0.8e1 / 0.3e1 * t91 * (t92 * t95 + 0.2e1 * t91 * (t100 - 0.3e1 / 0.2e1 - 0.2e1 * t97 * (t100 - 0.1e1))))";
  "t116 = lax_cond(r0 / 0.2e1 <= p_a_dens_threshold, 0, -0.3e1 / 0.8e1 * t3 / t4 * t18 * t20 * t111 * t50)";
  "res = 0.2e1 * t116"]%b.

(* gen_repo/impl/prebuilt/pol/gga_x_kt.py *)
Definition pol_gga_x_kt : list bstr := [
  "t2 = 3 ** (0.1e1 / 0.3e1)";
  "t3 = math.pi ** (0.1e1 / 0.3e1)";
  "t5 = t2 / t3";
  "t6 = r0 + r1";
  "t7 = 0.1e1 / t6";
  "t10 = 0.2e1 * r0 * t7 <= p_a_zeta_threshold";
  "t11 = p_a_zeta_threshold - 0.1e1";
  "t14 = 0.2e1 * r1 * t7 <= p_a_zeta_threshold";
  "t15 = -t11";
  "t17 = (r0 - r1) * t7";
  "t18 = lax_cond(t14, t15, t17)";
  "t19 = lax_cond(t10, t11, t18)";
  "t20 = 0.1e1 + t19";
  "t22 = p_a_zeta_threshold ** (0.1e1 / 0.3e1)";
  "t23 = t22 * p_a_zeta_threshold";
  "t24 = t20 ** (0.1e1 / 0.3e1)";
  "t26 = lax_cond(t20 <= p_a_zeta_threshold, t23, t24 * t20)";
  "t27 = t6 ** (0.1e1 / 0.3e1)";
  "t29 = t2 ** 2";
  "t32 = (0.1e1 / math.pi) ** (0.1e1 / 0.3e1)";
  "t34 = 4 ** (0.1e1 / 0.3e1)";
  "t36 = params_a_gamma * t29 / t32 * t34";
  "t37 = 2 ** (0.1e1 / 0.3e1)";
  "t38 = t37 ** 2";
  "t39 = t20 * t6";
  "t40 = t39 ** (0.1e1 / 0.3e1)";
  "t42 = t38 * t40 * t39";
  "t43 = r0 ** 2";
  "t44 = r0 ** (0.1e1 / 0.3e1)";
  "t45 = t44 ** 2";
  "t60 = lax_cond(r0 <= p_a_dens_threshold, 0, -0.3e1 / 0.8e1 * t5 * t26 * t27 * (0.1e1 - t36 * t42 * s0 / t45 / t43 / (t42 / 0.4e1 + params_a_delta) / 0.18e2))";
  "t62 = lax_cond(t10, t15, -t17)";
  "t63 = lax_cond(t14, t11, t62)";
  "t64 = 0.1e1 + t63";
  "t66 = t64 ** (0.1e1 / 0.3e1)";
  "t68 = lax_cond(t64 <= p_a_zeta_threshold, t23, t66 * t64)";
  "t70 = t64 * t6";
  "t71 = t70 ** (0.1e1 / 0.3e1)";
  "t73 = t38 * t71 * t70";
  "t74 = r1 ** 2";
  "t75 = r1 ** (0.1e1 / 0.3e1)";
  "t76 = t75 ** 2";
  "t91 = lax_cond(r1 <= p_a_dens_threshold, 0, -0.3e1 / 0.8e1 * t5 * t68 * t27 * (0.1e1 - t36 * t73 * s2 / t76 / t74 / (t73 / 0.4e1 + params_a_delta) / 0.18e2))";
  "res = t60 + t91"]%b.

(* gen_repo/impl/prebuilt/unpol/gga_x_kt.py *)
Definition unpol_gga_x_kt : list bstr := [
  "t3 = 3 ** (0.1e1 / 0.3e1)";
  "t4 = math.pi ** (0.1e1 / 0.3e1)";
  "t7 = 0.1e1 <= p_a_zeta_threshold";
  "t8 = p_a_zeta_threshold - 0.1e1";
  "t10 = lax_cond(t7, -t8, 0)";
  "t11 = lax_cond(t7, t8, t10)";
  "t12 = 0.1e1 + t11";
  "t14 = p_a_zeta_threshold ** (0.1e1 / 0.3e1)";
  "t16 = t12 ** (0.1e1 / 0.3e1)";
  "t18 = lax_cond(t12 <= p_a_zeta_threshold, t14 * p_a_zeta_threshold, t16 * t12)";
  "t19 = r0 ** (0.1e1 / 0.3e1)";
  "t21 = t3 ** 2";
  "t24 = (0.1e1 / math.pi) ** (0.1e1 / 0.3e1)";
  "t26 = 4 ** (0.1e1 / 0.3e1)";
  "t29 = 2 ** (0.1e1 / 0.3e1)";
  "t30 = t12 * r0";
  "t31 = t30 ** (0.1e1 / 0.3e1)";
  "t32 = t31 * t30";
  "t34 = r0 ** 2";
  "t35 = t19 ** 2";
  "t39 = t29 ** 2";
  "t52 = lax_cond(r0 / 0.2e1 <= p_a_dens_threshold, 0, -0.3e1 / 0.8e1 * t3 / t4 * t18 * t19 * (0.1e1 - params_a_gamma * t21 / t24 * t26 * t29 * t32 * s0 / t35 / t34 / (t39 * t32 / 0.4e1 + params_a_delta) / 0.9e1))";
  "res = 0.2e1 * t52"]%b.

(* gen_repo/impl/prebuilt/pol/gga_x_lag.py *)
Definition pol_gga_x_lag : list bstr := [
  "t2 = 3 ** (0.1e1 / 0.3e1)";
  "t3 = math.pi ** (0.1e1 / 0.3e1)";
  "t5 = t2 / t3";
  "t6 = r0 + r1";
  "t7 = 0.1e1 / t6";
  "t10 = 0.2e1 * r0 * t7 <= p_a_zeta_threshold";
  "t11 = p_a_zeta_threshold - 0.1e1";
  "t14 = 0.2e1 * r1 * t7 <= p_a_zeta_threshold";
  "t15 = -t11";
  "t17 = (r0 - r1) * t7";
  "t18 = lax_cond(t14, t15, t17)";
  "t19 = lax_cond(t10, t11, t18)";
  "t20 = 0.1e1 + t19";
  "t22 = p_a_zeta_threshold ** (0.1e1 / 0.3e1)";
  "t23 = t22 * p_a_zeta_threshold";
  "t24 = t20 ** (0.1e1 / 0.3e1)";
  "t26 = lax_cond(t20 <= p_a_zeta_threshold, t23, t24 * t20)";
  "t28 = t6 ** (0.1e1 / 0.3e1)";
  "t29 = 6 ** (0.1e1 / 0.3e1)";
  "t30 = t29 ** 2";
  "t31 = math.pi ** 2";
  "t32 = t31 ** (0.1e1 / 0.3e1)";
  "t34 = t30 / t32";
  "t35 = math.sqrt(s0)";
  "t36 = r0 ** (0.1e1 / 0.3e1)";
  "t41 = (t34 * t35 / t36 / r0) ** 0.2626712e1";
  "t45 = (0.1e1 + 0.13471619689594796103e-3 * t41) ** (-0.657946e0)";
  "t49 = lax_cond(r0 <= p_a_dens_threshold, 0, -0.22554757207579166202e-4 * t5 * t26 * t28 * t41 * t45)";
  "t51 = lax_cond(t10, t15, -t17)";
  "t52 = lax_cond(t14, t11, t51)";
  "t53 = 0.1e1 + t52";
  "t55 = t53 ** (0.1e1 / 0.3e1)";
  "t57 = lax_cond(t53 <= p_a_zeta_threshold, t23, t55 * t53)";
  "t59 = math.sqrt(s2)";
  "t60 = r1 ** (0.1e1 / 0.3e1)";
  "t65 = (t34 * t59 / t60 / r1) ** 0.2626712e1";
  "t69 = (0.1e1 + 0.13471619689594796103e-3 * t65) ** (-0.657946e0)";
  "t73 = lax_cond(r1 <= p_a_dens_threshold, 0, -0.22554757207579166202e-4 * t5 * t57 * t28 * t65 * t69)";
  "res = t49 + t73"]%b.

(* gen_repo/impl/prebuilt/unpol/gga_x_lag.py *)
Definition unpol_gga_x_lag : list bstr := [
  "t3 = 3 ** (0.1e1 / 0.3e1)";
  "t4 = math.pi ** (0.1e1 / 0.3e1)";
  "t7 = 0.1e1 <= p_a_zeta_threshold";
  "t8 = p_a_zeta_threshold - 0.1e1";
  "t10 = lax_cond(t7, -t8, 0)";
  "t11 = lax_cond(t7, t8, t10)";
  "t12 = 0.1e1 + t11";
  "t14 = p_a_zeta_threshold ** (0.1e1 / 0.3e1)";
  "t16 = t12 ** (0.1e1 / 0.3e1)";
  "t18 = lax_cond(t12 <= p_a_zeta_threshold, t14 * p_a_zeta_threshold, t16 * t12)";
  "t20 = r0 ** (0.1e1 / 0.3e1)";
  "t21 = 6 ** (0.1e1 / 0.3e1)";
  "t22 = t21 ** 2";
  "t23 = math.pi ** 2";
  "t24 = t23 ** (0.1e1 / 0.3e1)";
  "t27 = math.sqrt(s0)";
  "t28 = 2 ** (0.1e1 / 0.3e1)";
  "t34 = (t22 / t24 * t27 * t28 / t20 / r0) ** 0.2626712e1";
  "t38 = (0.1e1 + 0.13471619689594796103e-3 * t34) ** (-0.657946e0)";
  "t42 = lax_cond(r0 / 0.2e1 <= p_a_dens_threshold, 0, -0.22554757207579166202e-4 * t3 / t4 * t18 * t20 * t34 * t38)";
  "res = 0.2e1 * t42"]%b.

(* gen_repo/impl/prebuilt/pol/gga_x_lb.py *)
Definition pol_gga_x_lb : list bstr := [
  "t1 = 3 ** (0.1e1 / 0.3e1)";
  "t4 = (0.1e1 / math.pi) ** (0.1e1 / 0.3e1)";
  "t5 = 4 ** (0.1e1 / 0.3e1)";
  "t6 = t5 ** 2";
  "t10 = math.sqrt(s0)";
  "t11 = r0 ** (0.1e1 / 0.3e1)";
  "t13 = 0.1e1 / t11 / r0";
  "t14 = t10 * t13";
  "t17 = r0 ** 2";
  "t18 = t11 ** 2";
  "t23 = params_a_gamma * t10 * t13";
  "t24 = math.asinh(t23)";
  "t33 = math.log(0.2e1 * t23)";
  "t37 = lax_cond(t14 < 0.300e3, params_a_beta * s0 / t18 / t17 / (0.3e1 * params_a_beta * t10 * t13 * t24 + 0.1e1), t14 / t33 / 0.3e1)";
  "res = (-params_a_alpha * t1 * t4 * t6 / 0.2e1 - t37) * t11"]%b.

(* gen_repo/impl/prebuilt/unpol/gga_x_lb.py *)
Definition unpol_gga_x_lb : list bstr := [
  "t1 = 3 ** (0.1e1 / 0.3e1)";
  "t4 = (0.1e1 / math.pi) ** (0.1e1 / 0.3e1)";
  "t5 = 4 ** (0.1e1 / 0.3e1)";
  "t6 = t5 ** 2";
  "t10 = math.sqrt(s0)";
  "t11 = 2 ** (0.1e1 / 0.3e1)";
  "t12 = t10 * t11";
  "t13 = r0 ** (0.1e1 / 0.3e1)";
  "t15 = 0.1e1 / t13 / r0";
  "t19 = t11 ** 2";
  "t20 = r0 ** 2";
  "t21 = t13 ** 2";
  "t26 = t11 * t15";
  "t28 = params_a_gamma * t10 * t26";
  "t29 = math.asinh(t28)";
  "t38 = math.log(0.2e1 * t28)";
  "t43 = lax_cond(t12 * t15 < 0.300e3, params_a_beta * s0 * t19 / t21 / t20 / (0.3e1 * params_a_beta * t10 * t26 * t29 + 0.1e1), t12 * t15 / t38 / 0.3e1)";
  "res = (-params_a_alpha * t1 * t4 * t6 / 0.2e1 - t43) * t19 * t13 / 0.2e1"]%b.

(* gen_repo/impl/prebuilt/pol/gga_x_lg93.py *)
Definition pol_gga_x_lg93 : list bstr := [
  "t2 = 3 ** (0.1e1 / 0.3e1)";
  "t3 = math.pi ** (0.1e1 / 0.3e1)";
  "t5 = t2 / t3";
  "t6 = r0 + r1";
  "t7 = 0.1e1 / t6";
  "t10 = 0.2e1 * r0 * t7 <= p_a_zeta_threshold";
  "t11 = p_a_zeta_threshold - 0.1e1";
  "t14 = 0.2e1 * r1 * t7 <= p_a_zeta_threshold";
  "t15 = -t11";
  "t17 = (r0 - r1) * t7";
  "t18 = lax_cond(t14, t15, t17)";
  "t19 = lax_cond(t10, t11, t18)";
  "t20 = 0.1e1 + t19";
  "t22 = p_a_zeta_threshold ** (0.1e1 / 0.3e1)";
  "t23 = t22 * p_a_zeta_threshold";
  "t24 = t20 ** (0.1e1 / 0.3e1)";
  "t26 = lax_cond(t20 <= p_a_zeta_threshold, t23, t24 * t20)";
  "t28 = t6 ** (0.1e1 / 0.3e1)";
  "t29 = 6 ** (0.1e1 / 0.3e1)";
  "t30 = math.pi ** 2";
  "t31 = t30 ** (0.1e1 / 0.3e1)";
  "t32 = t31 ** 2";
  "t34 = t29 / t32";
  "t35 = r0 ** 2";
  "t36 = r0 ** (0.1e1 / 0.3e1)";
  "t37 = t36 ** 2";
  "t41 = t34 * s0 / t37 / t35";
  "t43 = t29 ** 2";
  "t46 = t43 / t31 / t30";
  "t47 = s0 ** 2";
  "t48 = t35 ** 2";
  "t49 = t48 * r0";
  "t55 = t30 ** 2";
  "t56 = 0.1e1 / t55";
  "t59 = t48 ** 2";
  "t65 = t29 / t32 / t55";
  "t66 = t47 ** 2";
  "t76 = t43 / t31 / t55 / t30";
  "t84 = t55 ** 2";
  "t85 = 0.1e1 / t84";
  "t88 = t59 ** 2";
  "t93 = (0.1e1 + 0.20588079936467259283e0 * t41 + 0.51718749999999999998e-1 * t46 * t47 / t36 / t49 + 0.97296006944444444444e-2 * t56 * t47 * s0 / t59 + 0.21916594328703703703e-3 * t65 * t66 / t37 / t59 / t35 + 0.11831024546682098765e-2 * t76 * t66 * s0 / t36 / t59 / t49 + 0.10538736979166666667e-4 * t85 * t66 * t47 / t88) ** 0.24974e-1";
  "t101 = lax_cond(r0 <= p_a_dens_threshold, 0, -0.3e1 / 0.8e1 * t5 * t26 * t28 * t93 / (0.1e1 + 0.41666666666666666666e-9 * t41))";
  "t103 = lax_cond(t10, t15, -t17)";
  "t104 = lax_cond(t14, t11, t103)";
  "t105 = 0.1e1 + t104";
  "t107 = t105 ** (0.1e1 / 0.3e1)";
  "t109 = lax_cond(t105 <= p_a_zeta_threshold, t23, t107 * t105)";
  "t111 = r1 ** 2";
  "t112 = r1 ** (0.1e1 / 0.3e1)";
  "t113 = t112 ** 2";
  "t117 = t34 * s2 / t113 / t111";
  "t119 = s2 ** 2";
  "t120 = t111 ** 2";
  "t121 = t120 * r1";
  "t129 = t120 ** 2";
  "t133 = t119 ** 2";
  "t149 = t129 ** 2";
  "t154 = (0.1e1 + 0.20588079936467259283e0 * t117 + 0.51718749999999999998e-1 * t46 * t119 / t112 / t121 + 0.97296006944444444444e-2 * t56 * t119 * s2 / t129 + 0.21916594328703703703e-3 * t65 * t133 / t113 / t129 / t111 + 0.11831024546682098765e-2 * t76 * t133 * s2 / t112 / t129 / t121 + 0.10538736979166666667e-4 * t85 * t133 * t119 / t149) ** 0.24974e-1";
  "t162 = lax_cond(r1 <= p_a_dens_threshold, 0, -0.3e1 / 0.8e1 * t5 * t109 * t28 * t154 / (0.1e1 + 0.41666666666666666666e-9 * t117))";
  "res = t101 + t162"]%b.

(* gen_repo/impl/prebuilt/unpol/gga_x_lg93.py *)
Definition unpol_gga_x_lg93 : list bstr := [
  "t3 = 3 ** (0.1e1 / 0.3e1)";
  "t4 = math.pi ** (0.1e1 / 0.3e1)";
  "t7 = 0.1e1 <= p_a_zeta_threshold";
  "t8 = p_a_zeta_threshold - 0.1e1";
  "t10 = lax_cond(t7, -t8, 0)";
  "t11 = lax_cond(t7, t8, t10)";
  "t12 = 0.1e1 + t11";
  "t14 = p_a_zeta_threshold ** (0.1e1 / 0.3e1)";
  "t16 = t12 ** (0.1e1 / 0.3e1)";
  "t18 = lax_cond(t12 <= p_a_zeta_threshold, t14 * p_a_zeta_threshold, t16 * t12)";
  "t20 = r0 ** (0.1e1 / 0.3e1)";
  "t21 = 6 ** (0.1e1 / 0.3e1)";
  "t22 = math.pi ** 2";
  "t23 = t22 ** (0.1e1 / 0.3e1)";
  "t24 = t23 ** 2";
  "t27 = 2 ** (0.1e1 / 0.3e1)";
  "t28 = t27 ** 2";
  "t30 = r0 ** 2";
  "t31 = t20 ** 2";
  "t35 = t21 / t24 * s0 * t28 / t31 / t30";
  "t37 = t21 ** 2";
  "t41 = s0 ** 2";
  "t43 = t30 ** 2";
  "t44 = t43 * r0";
  "t50 = t22 ** 2";
  "t54 = t43 ** 2";
  "t61 = t41 ** 2";
  "t81 = t50 ** 2";
  "t85 = t54 ** 2";
  "t90 = (0.1e1 + 0.20588079936467259283e0 * t35 + 0.10343750000000000000e0 * t37 / t23 / t22 * t41 * t27 / t20 / t44 + 0.38918402777777777778e-1 / t50 * t41 * s0 / t54 + 0.87666377314814814812e-3 * t21 / t24 / t50 * t61 * t28 / t31 / t54 / t30 + 0.94648196373456790120e-2 * t37 / t23 / t50 / t22 * t61 * s0 * t27 / t20 / t54 / t44 + 0.16861979166666666667e-3 / t81 * t61 * t41 / t85) ** 0.24974e-1";
  "t98 = lax_cond(r0 / 0.2e1 <= p_a_dens_threshold, 0, -0.3e1 / 0.8e1 * t3 / t4 * t18 * t20 * t90 / (0.1e1 + 0.41666666666666666666e-9 * t35))";
  "res = 0.2e1 * t98"]%b.

(* gen_repo/impl/prebuilt/pol/gga_x_lspbe.py *)
Definition pol_gga_x_lspbe : list bstr := [
  "t2 = 3 ** (0.1e1 / 0.3e1)";
  "t3 = math.pi ** (0.1e1 / 0.3e1)";
  "t5 = t2 / t3";
  "t6 = r0 + r1";
  "t7 = 0.1e1 / t6";
  "t10 = 0.2e1 * r0 * t7 <= p_a_zeta_threshold";
  "t11 = p_a_zeta_threshold - 0.1e1";
  "t14 = 0.2e1 * r1 * t7 <= p_a_zeta_threshold";
  "t15 = -t11";
  "t17 = (r0 - r1) * t7";
  "t18 = lax_cond(t14, t15, t17)";
  "t19 = lax_cond(t10, t11, t18)";
  "t20 = 0.1e1 + t19";
  "t22 = p_a_zeta_threshold ** (0.1e1 / 0.3e1)";
  "t23 = t22 * p_a_zeta_threshold";
  "t24 = t20 ** (0.1e1 / 0.3e1)";
  "t26 = lax_cond(t20 <= p_a_zeta_threshold, t23, t24 * t20)";
  "t27 = t6 ** (0.1e1 / 0.3e1)";
  "t29 = 6 ** (0.1e1 / 0.3e1)";
  "t30 = params_a_mu * t29";
  "t31 = math.pi ** 2";
  "t32 = t31 ** (0.1e1 / 0.3e1)";
  "t33 = t32 ** 2";
  "t34 = 0.1e1 / t33";
  "t36 = r0 ** 2";
  "t37 = r0 ** (0.1e1 / 0.3e1)";
  "t38 = t37 ** 2";
  "t41 = t34 * s0 / t38 / t36";
  "t49 = params_a_kappa + 0.1e1";
  "t50 = params_a_alpha * t29";
  "t53 = math.exp(-t50 * t41 / 0.24e2)";
  "t60 = lax_cond(r0 <= p_a_dens_threshold, 0, -0.3e1 / 0.8e1 * t5 * t26 * t27 * (0.1e1 + params_a_kappa * (0.1e1 - params_a_kappa / (params_a_kappa + t30 * t41 / 0.24e2)) - t49 * (0.1e1 - t53)))";
  "t62 = lax_cond(t10, t15, -t17)";
  "t63 = lax_cond(t14, t11, t62)";
  "t64 = 0.1e1 + t63";
  "t66 = t64 ** (0.1e1 / 0.3e1)";
  "t68 = lax_cond(t64 <= p_a_zeta_threshold, t23, t66 * t64)";
  "t71 = r1 ** 2";
  "t72 = r1 ** (0.1e1 / 0.3e1)";
  "t73 = t72 ** 2";
  "t76 = t34 * s2 / t73 / t71";
  "t86 = math.exp(-t50 * t76 / 0.24e2)";
  "t93 = lax_cond(r1 <= p_a_dens_threshold, 0, -0.3e1 / 0.8e1 * t5 * t68 * t27 * (0.1e1 + params_a_kappa * (0.1e1 - params_a_kappa / (params_a_kappa + t30 * t76 / 0.24e2)) - t49 * (0.1e1 - t86)))";
  "res = t60 + t93"]%b.

(* gen_repo/impl/prebuilt/unpol/gga_x_lspbe.py *)
Definition unpol_gga_x_lspbe : list bstr := [
  "t3 = 3 ** (0.1e1 / 0.3e1)";
  "t4 = math.pi ** (0.1e1 / 0.3e1)";
  "t7 = 0.1e1 <= p_a_zeta_threshold";
  "t8 = p_a_zeta_threshold - 0.1e1";
  "t10 = lax_cond(t7, -t8, 0)";
  "t11 = lax_cond(t7, t8, t10)";
  "t12 = 0.1e1 + t11";
  "t14 = p_a_zeta_threshold ** (0.1e1 / 0.3e1)";
  "t16 = t12 ** (0.1e1 / 0.3e1)";
  "t18 = lax_cond(t12 <= p_a_zeta_threshold, t14 * p_a_zeta_threshold, t16 * t12)";
  "t19 = r0 ** (0.1e1 / 0.3e1)";
  "t21 = 6 ** (0.1e1 / 0.3e1)";
  "t23 = math.pi ** 2";
  "t24 = t23 ** (0.1e1 / 0.3e1)";
  "t25 = t24 ** 2";
  "t26 = 0.1e1 / t25";
  "t28 = 2 ** (0.1e1 / 0.3e1)";
  "t29 = t28 ** 2";
  "t31 = r0 ** 2";
  "t32 = t19 ** 2";
  "t35 = s0 * t29 / t32 / t31";
  "t48 = math.exp(-params_a_alpha * t21 * t26 * t35 / 0.24e2)";
  "t55 = lax_cond(r0 / 0.2e1 <= p_a_dens_threshold, 0, -0.3e1 / 0.8e1 * t3 / t4 * t18 * t19 * (0.1e1 + params_a_kappa * (0.1e1 - params_a_kappa / (params_a_kappa + params_a_mu * t21 * t26 * t35 / 0.24e2)) - (params_a_kappa + 0.1e1) * (0.1e1 - t48)))";
  "res = 0.2e1 * t55"]%b.

(* gen_repo/impl/prebuilt/pol/gga_x_lsrpbe.py *)
Definition pol_gga_x_lsrpbe : list bstr := [
  "t2 = 3 ** (0.1e1 / 0.3e1)";
  "t3 = math.pi ** (0.1e1 / 0.3e1)";
  "t5 = t2 / t3";
  "t6 = r0 + r1";
  "t7 = 0.1e1 / t6";
  "t10 = 0.2e1 * r0 * t7 <= p_a_zeta_threshold";
  "t11 = p_a_zeta_threshold - 0.1e1";
  "t14 = 0.2e1 * r1 * t7 <= p_a_zeta_threshold";
  "t15 = -t11";
  "t17 = (r0 - r1) * t7";
  "t18 = lax_cond(t14, t15, t17)";
  "t19 = lax_cond(t10, t11, t18)";
  "t20 = 0.1e1 + t19";
  "t22 = p_a_zeta_threshold ** (0.1e1 / 0.3e1)";
  "t23 = t22 * p_a_zeta_threshold";
  "t24 = t20 ** (0.1e1 / 0.3e1)";
  "t26 = lax_cond(t20 <= p_a_zeta_threshold, t23, t24 * t20)";
  "t27 = t6 ** (0.1e1 / 0.3e1)";
  "t29 = 6 ** (0.1e1 / 0.3e1)";
  "t31 = math.pi ** 2";
  "t32 = t31 ** (0.1e1 / 0.3e1)";
  "t33 = t32 ** 2";
  "t34 = 0.1e1 / t33";
  "t35 = params_a_mu * t29 * t34";
  "t36 = r0 ** 2";
  "t37 = r0 ** (0.1e1 / 0.3e1)";
  "t38 = t37 ** 2";
  "t40 = 0.1e1 / t38 / t36";
  "t42 = 0.1e1 / params_a_kappa";
  "t46 = math.exp(-t35 * s0 * t40 * t42 / 0.24e2)";
  "t49 = params_a_kappa + 0.1e1";
  "t50 = params_a_alpha * t29";
  "t55 = math.exp(-t50 * t34 * s0 * t40 / 0.24e2)";
  "t62 = lax_cond(r0 <= p_a_dens_threshold, 0, -0.3e1 / 0.8e1 * t5 * t26 * t27 * (0.1e1 + params_a_kappa * (0.1e1 - t46) - t49 * (0.1e1 - t55)))";
  "t64 = lax_cond(t10, t15, -t17)";
  "t65 = lax_cond(t14, t11, t64)";
  "t66 = 0.1e1 + t65";
  "t68 = t66 ** (0.1e1 / 0.3e1)";
  "t70 = lax_cond(t66 <= p_a_zeta_threshold, t23, t68 * t66)";
  "t72 = r1 ** 2";
  "t73 = r1 ** (0.1e1 / 0.3e1)";
  "t74 = t73 ** 2";
  "t76 = 0.1e1 / t74 / t72";
  "t81 = math.exp(-t35 * s2 * t76 * t42 / 0.24e2)";
  "t88 = math.exp(-t50 * t34 * s2 * t76 / 0.24e2)";
  "t95 = lax_cond(r1 <= p_a_dens_threshold, 0, -0.3e1 / 0.8e1 * t5 * t70 * t27 * (0.1e1 + params_a_kappa * (0.1e1 - t81) - t49 * (0.1e1 - t88)))";
  "res = t62 + t95"]%b.

(* gen_repo/impl/prebuilt/unpol/gga_x_lsrpbe.py *)
Definition unpol_gga_x_lsrpbe : list bstr := [
  "t3 = 3 ** (0.1e1 / 0.3e1)";
  "t4 = math.pi ** (0.1e1 / 0.3e1)";
  "t7 = 0.1e1 <= p_a_zeta_threshold";
  "t8 = p_a_zeta_threshold - 0.1e1";
  "t10 = lax_cond(t7, -t8, 0)";
  "t11 = lax_cond(t7, t8, t10)";
  "t12 = 0.1e1 + t11";
  "t14 = p_a_zeta_threshold ** (0.1e1 / 0.3e1)";
  "t16 = t12 ** (0.1e1 / 0.3e1)";
  "t18 = lax_cond(t12 <= p_a_zeta_threshold, t14 * p_a_zeta_threshold, t16 * t12)";
  "t19 = r0 ** (0.1e1 / 0.3e1)";
  "t21 = 6 ** (0.1e1 / 0.3e1)";
  "t23 = math.pi ** 2";
  "t24 = t23 ** (0.1e1 / 0.3e1)";
  "t25 = t24 ** 2";
  "t26 = 0.1e1 / t25";
  "t28 = 2 ** (0.1e1 / 0.3e1)";
  "t29 = t28 ** 2";
  "t30 = s0 * t29";
  "t31 = r0 ** 2";
  "t32 = t19 ** 2";
  "t34 = 0.1e1 / t32 / t31";
  "t40 = math.exp(-params_a_mu * t21 * t26 * t30 * t34 / params_a_kappa / 0.24e2)";
  "t49 = math.exp(-params_a_alpha * t21 * t26 * t30 * t34 / 0.24e2)";
  "t56 = lax_cond(r0 / 0.2e1 <= p_a_dens_threshold, 0, -0.3e1 / 0.8e1 * t3 / t4 * t18 * t19 * (0.1e1 + params_a_kappa * (0.1e1 - t40) - (params_a_kappa + 0.1e1) * (0.1e1 - t49)))";
  "res = 0.2e1 * t56"]%b.

(* gen_repo/impl/prebuilt/pol/gga_x_lv_rpw86.py *)
Definition pol_gga_x_lv_rpw86 : list bstr := [
  "t2 = 3 ** (0.1e1 / 0.3e1)";
  "t3 = math.pi ** (0.1e1 / 0.3e1)";
  "t5 = t2 / t3";
  "t6 = r0 + r1";
  "t7 = 0.1e1 / t6";
  "t10 = 0.2e1 * r0 * t7 <= p_a_zeta_threshold";
  "t11 = p_a_zeta_threshold - 0.1e1";
  "t14 = 0.2e1 * r1 * t7 <= p_a_zeta_threshold";
  "t15 = -t11";
  "t17 = (r0 - r1) * t7";
  "t18 = lax_cond(t14, t15, t17)";
  "t19 = lax_cond(t10, t11, t18)";
  "t20 = 0.1e1 + t19";
  "t22 = p_a_zeta_threshold ** (0.1e1 / 0.3e1)";
  "t23 = t22 * p_a_zeta_threshold";
  "t24 = t20 ** (0.1e1 / 0.3e1)";
  "t26 = lax_cond(t20 <= p_a_zeta_threshold, t23, t24 * t20)";
  "t27 = t6 ** (0.1e1 / 0.3e1)";
  "t29 = 6 ** (0.1e1 / 0.3e1)";
  "t30 = math.pi ** 2";
  "t31 = t30 ** (0.1e1 / 0.3e1)";
  "t32 = t31 ** 2";
  "t34 = t29 / t32";
  "t35 = r0 ** 2";
  "t36 = r0 ** (0.1e1 / 0.3e1)";
  "t37 = t36 ** 2";
  "t41 = t34 * s0 / t37 / t35";
  "t44 = t30 ** 2";
  "t45 = 0.1e1 / t44";
  "t46 = s0 ** 2";
  "t48 = t45 * t46 * s0";
  "t49 = t35 ** 2";
  "t50 = t49 ** 2";
  "t51 = 0.1e1 / t50";
  "t52 = t48 * t51";
  "t53 = 0.94531250000000000000e-5 * t52";
  "t58 = t29 ** 2";
  "t61 = t58 / t31 / t30";
  "t70 = (0.1e1 + 0.77125000000000000002e-1 * t41 + 0.30086805555555555556e-1 * t61 * t46 / t36 / t49 / r0 + 0.70746527777777777778e-4 * t52) ** (0.1e1 / 0.15e2)";
  "t81 = lax_cond(r0 <= p_a_dens_threshold, 0, -0.3e1 / 0.8e1 * t5 * t26 * t27 * ((0.1e1 + 0.39310185185185185185e-2 * t41) / (0.1e1 + t53) + 0.94531250000000000000e-5 * t48 * t51 * t70 / (0.115e1 + t53)))";
  "t83 = lax_cond(t10, t15, -t17)";
  "t84 = lax_cond(t14, t11, t83)";
  "t85 = 0.1e1 + t84";
  "t87 = t85 ** (0.1e1 / 0.3e1)";
  "t89 = lax_cond(t85 <= p_a_zeta_threshold, t23, t87 * t85)";
  "t91 = r1 ** 2";
  "t92 = r1 ** (0.1e1 / 0.3e1)";
  "t93 = t92 ** 2";
  "t97 = t34 * s2 / t93 / t91";
  "t100 = s2 ** 2";
  "t102 = t45 * t100 * s2";
  "t103 = t91 ** 2";
  "t104 = t103 ** 2";
  "t105 = 0.1e1 / t104";
  "t106 = t102 * t105";
  "t107 = 0.94531250000000000000e-5 * t106";
  "t120 = (0.1e1 + 0.77125000000000000002e-1 * t97 + 0.30086805555555555556e-1 * t61 * t100 / t92 / t103 / r1 + 0.70746527777777777778e-4 * t106) ** (0.1e1 / 0.15e2)";
  "t131 = lax_cond(r1 <= p_a_dens_threshold, 0, -0.3e1 / 0.8e1 * t5 * t89 * t27 * ((0.1e1 + 0.39310185185185185185e-2 * t97) / (0.1e1 + t107) + 0.94531250000000000000e-5 * t102 * t105 * t120 / (0.115e1 + t107)))";
  "res = t81 + t131"]%b.

(* gen_repo/impl/prebuilt/unpol/gga_x_lv_rpw86.py *)
Definition unpol_gga_x_lv_rpw86 : list bstr := [
  "t3 = 3 ** (0.1e1 / 0.3e1)";
  "t4 = math.pi ** (0.1e1 / 0.3e1)";
  "t7 = 0.1e1 <= p_a_zeta_threshold";
  "t8 = p_a_zeta_threshold - 0.1e1";
  "t10 = lax_cond(t7, -t8, 0)";
  "t11 = lax_cond(t7, t8, t10)";
  "t12 = 0.1e1 + t11";
  "t14 = p_a_zeta_threshold ** (0.1e1 / 0.3e1)";
  "t16 = t12 ** (0.1e1 / 0.3e1)";
  "t18 = lax_cond(t12 <= p_a_zeta_threshold, t14 * p_a_zeta_threshold, t16 * t12)";
  "t19 = r0 ** (0.1e1 / 0.3e1)";
  "t21 = 6 ** (0.1e1 / 0.3e1)";
  "t22 = math.pi ** 2";
  "t23 = t22 ** (0.1e1 / 0.3e1)";
  "t24 = t23 ** 2";
  "t27 = 2 ** (0.1e1 / 0.3e1)";
  "t28 = t27 ** 2";
  "t30 = r0 ** 2";
  "t31 = t19 ** 2";
  "t35 = t21 / t24 * s0 * t28 / t31 / t30";
  "t38 = t22 ** 2";
  "t40 = s0 ** 2";
  "t42 = 0.1e1 / t38 * t40 * s0";
  "t43 = t30 ** 2";
  "t44 = t43 ** 2";
  "t45 = 0.1e1 / t44";
  "t46 = t42 * t45";
  "t47 = 0.37812500000000000000e-4 * t46";
  "t52 = t21 ** 2";
  "t65 = (0.1e1 + 0.77125000000000000002e-1 * t35 + 0.60173611111111111112e-1 * t52 / t23 / t22 * t40 * t27 / t19 / t43 / r0 + 0.28298611111111111111e-3 * t46) ** (0.1e1 / 0.15e2)";
  "t76 = lax_cond(r0 / 0.2e1 <= p_a_dens_threshold, 0, -0.3e1 / 0.8e1 * t3 / t4 * t18 * t19 * ((0.1e1 + 0.39310185185185185185e-2 * t35) / (0.1e1 + t47) + 0.37812500000000000000e-4 * t42 * t45 * t65 / (0.115e1 + t47)))";
  "res = 0.2e1 * t76"]%b.

(* gen_repo/impl/prebuilt/pol/gga_x_mpbe.py *)
Definition pol_gga_x_mpbe : list bstr := [
  "t2 = 3 ** (0.1e1 / 0.3e1)";
  "t3 = math.pi ** (0.1e1 / 0.3e1)";
  "t5 = t2 / t3";
  "t6 = r0 + r1";
  "t7 = 0.1e1 / t6";
  "t10 = 0.2e1 * r0 * t7 <= p_a_zeta_threshold";
  "t11 = p_a_zeta_threshold - 0.1e1";
  "t14 = 0.2e1 * r1 * t7 <= p_a_zeta_threshold";
  "t15 = -t11";
  "t17 = (r0 - r1) * t7";
  "t18 = lax_cond(t14, t15, t17)";
  "t19 = lax_cond(t10, t11, t18)";
  "t20 = 0.1e1 + t19";
  "t22 = p_a_zeta_threshold ** (0.1e1 / 0.3e1)";
  "t23 = t22 * p_a_zeta_threshold";
  "t24 = t20 ** (0.1e1 / 0.3e1)";
  "t26 = lax_cond(t20 <= p_a_zeta_threshold, t23, t24 * t20)";
  "t27 = t6 ** (0.1e1 / 0.3e1)";
  "t29 = 6 ** (0.1e1 / 0.3e1)";
  "t31 = math.pi ** 2";
  "t32 = t31 ** (0.1e1 / 0.3e1)";
  "t33 = t32 ** 2";
  "t34 = 0.1e1 / t33";
  "t35 = params_a_c1 * t29 * t34";
  "t36 = r0 ** 2";
  "t37 = r0 ** (0.1e1 / 0.3e1)";
  "t38 = t37 ** 2";
  "t40 = 0.1e1 / t38 / t36";
  "t42 = params_a_a * t29";
  "t47 = 0.1e1 + t42 * t34 * s0 * t40 / 0.24e2";
  "t52 = t29 ** 2";
  "t56 = params_a_c2 * t52 / t32 / t31";
  "t57 = s0 ** 2";
  "t58 = t36 ** 2";
  "t63 = t47 ** 2";
  "t68 = t31 ** 2";
  "t70 = params_a_c3 / t68";
  "t72 = t58 ** 2";
  "t84 = lax_cond(r0 <= p_a_dens_threshold, 0, -0.3e1 / 0.8e1 * t5 * t26 * t27 * (0.1e1 + t35 * s0 * t40 / t47 / 0.24e2 + t56 * t57 / t37 / t58 / r0 / t63 / 0.576e3 + t70 * t57 * s0 / t72 / t63 / t47 / 0.2304e4))";
  "t86 = lax_cond(t10, t15, -t17)";
  "t87 = lax_cond(t14, t11, t86)";
  "t88 = 0.1e1 + t87";
  "t90 = t88 ** (0.1e1 / 0.3e1)";
  "t92 = lax_cond(t88 <= p_a_zeta_threshold, t23, t90 * t88)";
  "t94 = r1 ** 2";
  "t95 = r1 ** (0.1e1 / 0.3e1)";
  "t96 = t95 ** 2";
  "t98 = 0.1e1 / t96 / t94";
  "t104 = 0.1e1 + t42 * t34 * s2 * t98 / 0.24e2";
  "t109 = s2 ** 2";
  "t110 = t94 ** 2";
  "t115 = t104 ** 2";
  "t121 = t110 ** 2";
  "t133 = lax_cond(r1 <= p_a_dens_threshold, 0, -0.3e1 / 0.8e1 * t5 * t92 * t27 * (0.1e1 + t35 * s2 * t98 / t104 / 0.24e2 + t56 * t109 / t95 / t110 / r1 / t115 / 0.576e3 + t70 * t109 * s2 / t121 / t115 / t104 / 0.2304e4))";
  "res = t84 + t133"]%b.

(* gen_repo/impl/prebuilt/unpol/gga_x_mpbe.py *)
Definition unpol_gga_x_mpbe : list bstr := [
  "t3 = 3 ** (0.1e1 / 0.3e1)";
  "t4 = math.pi ** (0.1e1 / 0.3e1)";
  "t7 = 0.1e1 <= p_a_zeta_threshold";
  "t8 = p_a_zeta_threshold - 0.1e1";
  "t10 = lax_cond(t7, -t8, 0)";
  "t11 = lax_cond(t7, t8, t10)";
  "t12 = 0.1e1 + t11";
  "t14 = p_a_zeta_threshold ** (0.1e1 / 0.3e1)";
  "t16 = t12 ** (0.1e1 / 0.3e1)";
  "t18 = lax_cond(t12 <= p_a_zeta_threshold, t14 * p_a_zeta_threshold, t16 * t12)";
  "t19 = r0 ** (0.1e1 / 0.3e1)";
  "t21 = 6 ** (0.1e1 / 0.3e1)";
  "t23 = math.pi ** 2";
  "t24 = t23 ** (0.1e1 / 0.3e1)";
  "t25 = t24 ** 2";
  "t26 = 0.1e1 / t25";
  "t28 = 2 ** (0.1e1 / 0.3e1)";
  "t29 = t28 ** 2";
  "t30 = s0 * t29";
  "t31 = r0 ** 2";
  "t32 = t19 ** 2";
  "t34 = 0.1e1 / t32 / t31";
  "t40 = 0.1e1 + params_a_a * t21 * t26 * t30 * t34 / 0.24e2";
  "t46 = t21 ** 2";
  "t51 = s0 ** 2";
  "t53 = t31 ** 2";
  "t57 = t40 ** 2";
  "t63 = t23 ** 2";
  "t67 = t53 ** 2";
  "t79 = lax_cond(r0 / 0.2e1 <= p_a_dens_threshold, 0, -0.3e1 / 0.8e1 * t3 / t4 * t18 * t19 * (0.1e1 + params_a_c1 * t21 * t26 * t30 * t34 / t40 / 0.24e2 + params_a_c2 * t46 / t24 / t23 * t51 * t28 / t19 / t53 / r0 / t57 / 0.288e3 + params_a_c3 / t63 * t51 * s0 / t67 / t57 / t40 / 0.576e3))";
  "res = 0.2e1 * t79"]%b.

(* gen_repo/impl/prebuilt/pol/gga_x_n12.py *)
Definition pol_gga_x_n12 : list bstr := [
  "t2 = 3 ** (0.1e1 / 0.3e1)";
  "t3 = math.pi ** (0.1e1 / 0.3e1)";
  "t5 = t2 / t3";
  "t6 = r0 + r1";
  "t7 = 0.1e1 / t6";
  "t10 = 0.2e1 * r0 * t7 <= p_a_zeta_threshold";
  "t11 = p_a_zeta_threshold - 0.1e1";
  "t14 = 0.2e1 * r1 * t7 <= p_a_zeta_threshold";
  "t15 = -t11";
  "t17 = (r0 - r1) * t7";
  "t18 = lax_cond(t14, t15, t17)";
  "t19 = lax_cond(t10, t11, t18)";
  "t20 = 0.1e1 + t19";
  "t22 = p_a_zeta_threshold ** (0.1e1 / 0.3e1)";
  "t23 = t22 * p_a_zeta_threshold";
  "t24 = t20 ** (0.1e1 / 0.3e1)";
  "t26 = lax_cond(t20 <= p_a_zeta_threshold, t23, t24 * t20)";
  "t27 = t6 ** (0.1e1 / 0.3e1)";
  "t29 = params_a_CC_0_[0]";
  "t30 = params_a_CC_0_[1]";
  "t32 = r0 ** 2";
  "t33 = r0 ** (0.1e1 / 0.3e1)";
  "t34 = t33 ** 2";
  "t36 = 0.1e1 / t34 / t32";
  "t39 = 0.1e1 + 0.4e-2 * s0 * t36";
  "t41 = t36 / t39";
  "t44 = params_a_CC_0_[2]";
  "t45 = s0 ** 2";
  "t47 = t32 ** 2";
  "t51 = t39 ** 2";
  "t53 = 0.1e1 / t33 / t47 / r0 / t51";
  "t56 = params_a_CC_0_[3]";
  "t57 = t45 * s0";
  "t59 = t47 ** 2";
  "t63 = 0.1e1 / t59 / t51 / t39";
  "t66 = params_a_CC_1_[0]";
  "t67 = params_a_CC_1_[1]";
  "t71 = params_a_CC_1_[2]";
  "t75 = params_a_CC_1_[3]";
  "t81 = 2 ** (0.1e1 / 0.3e1)";
  "t82 = 0.1e1 / t27 * t81";
  "t84 = 0.1e1 + t17 <= p_a_zeta_threshold";
  "t86 = 0.1e1 - t17 <= p_a_zeta_threshold";
  "t87 = lax_cond(t86, t15, t17)";
  "t88 = lax_cond(t84, t11, t87)";
  "t89 = 0.1e1 + t88";
  "t91 = 0.1e1 / t22";
  "t92 = t89 ** (0.1e1 / 0.3e1)";
  "t94 = lax_cond(t89 <= p_a_zeta_threshold, t91, 0.1e1 / t92)";
  "t97 = 0.1e1 + 0.39999999999999999998e0 * t82 * t94";
  "t100 = params_a_CC_2_[0]";
  "t101 = params_a_CC_2_[1]";
  "t105 = params_a_CC_2_[2]";
  "t109 = params_a_CC_2_[3]";
  "t114 = t97 ** 2";
  "t117 = params_a_CC_3_[0]";
  "t118 = params_a_CC_3_[1]";
  "t122 = params_a_CC_3_[2]";
  "t126 = params_a_CC_3_[3]";
  "t138 = lax_cond(r0 <= p_a_dens_threshold, 0, -0.3e1 / 0.8e1 * t5 * t26 * t27 * (t29 + 0.4e-2 * t30 * s0 * t41 + 0.16e-4 * t44 * t45 * t53 + 0.64e-7 * t56 * t57 * t63 + (t66 + 0.4e-2 * t67 * s0 * t41 + 0.16e-4 * t71 * t45 * t53 + 0.64e-7 * t75 * t57 * t63) / t97 + (t100 + 0.4e-2 * t101 * s0 * t41 + 0.16e-4 * t105 * t45 * t53 + 0.64e-7 * t109 * t57 * t63) / t114 + (t117 + 0.4e-2 * t118 * s0 * t41 + 0.16e-4 * t122 * t45 * t53 + 0.64e-7 * t126 * t57 * t63) / t114 / t97))";
  "t140 = lax_cond(t10, t15, -t17)";
  "t141 = lax_cond(t14, t11, t140)";
  "t142 = 0.1e1 + t141";
  "t144 = t142 ** (0.1e1 / 0.3e1)";
  "t146 = lax_cond(t142 <= p_a_zeta_threshold, t23, t144 * t142)";
  "t149 = r1 ** 2";
  "t150 = r1 ** (0.1e1 / 0.3e1)";
  "t151 = t150 ** 2";
  "t153 = 0.1e1 / t151 / t149";
  "t156 = 0.1e1 + 0.4e-2 * s2 * t153";
  "t158 = t153 / t156";
  "t161 = s2 ** 2";
  "t163 = t149 ** 2";
  "t167 = t156 ** 2";
  "t169 = 0.1e1 / t150 / t163 / r1 / t167";
  "t172 = t161 * s2";
  "t174 = t163 ** 2";
  "t178 = 0.1e1 / t174 / t167 / t156";
  "t191 = lax_cond(t84, t15, -t17)";
  "t192 = lax_cond(t86, t11, t191)";
  "t193 = 0.1e1 + t192";
  "t195 = t193 ** (0.1e1 / 0.3e1)";
  "t197 = lax_cond(t193 <= p_a_zeta_threshold, t91, 0.1e1 / t195)";
  "t200 = 0.1e1 + 0.39999999999999999998e0 * t82 * t197";
  "t213 = t200 ** 2";
  "t233 = lax_cond(r1 <= p_a_dens_threshold, 0, -0.3e1 / 0.8e1 * t5 * t146 * t27 * (t29 + 0.4e-2 * t30 * s2 * t158 + 0.16e-4 * t44 * t161 * t169 + 0.64e-7 * t56 * t172 * t178 + (t66 + 0.4e-2 * t67 * s2 * t158 + 0.16e-4 * t71 * t161 * t169 + 0.64e-7 * t75 * t172 * t178) / t200 + (t100 + 0.4e-2 * t101 * s2 * t158 + 0.16e-4 * t105 * t161 * t169 + 0.64e-7 * t109 * t172 * t178) / t213 + (t117 + 0.4e-2 * t118 * s2 * t158 + 0.16e-4 * t122 * t161 * t169 + 0.64e-7 * t126 * t172 * t178) / t213 / t200))";
  "res = t138 + t233"]%b.

(* gen_repo/impl/prebuilt/unpol/gga_x_n12.py *)
Definition unpol_gga_x_n12 : list bstr := [
  "t3 = 3 ** (0.1e1 / 0.3e1)";
  "t4 = math.pi ** (0.1e1 / 0.3e1)";
  "t7 = 0.1e1 <= p_a_zeta_threshold";
  "t8 = p_a_zeta_threshold - 0.1e1";
  "t10 = lax_cond(t7, -t8, 0)";
  "t11 = lax_cond(t7, t8, t10)";
  "t12 = 0.1e1 + t11";
  "t13 = t12 <= p_a_zeta_threshold";
  "t14 = p_a_zeta_threshold ** (0.1e1 / 0.3e1)";
  "t16 = t12 ** (0.1e1 / 0.3e1)";
  "t18 = lax_cond(t13, t14 * p_a_zeta_threshold, t16 * t12)";
  "t19 = r0 ** (0.1e1 / 0.3e1)";
  "t24 = 2 ** (0.1e1 / 0.3e1)";
  "t25 = t24 ** 2";
  "t26 = r0 ** 2";
  "t27 = t19 ** 2";
  "t29 = 0.1e1 / t27 / t26";
  "t34 = 0.1e1 + 0.4e-2 * s0 * t25 * t29";
  "t36 = t25 * t29 / t34";
  "t40 = s0 ** 2";
  "t42 = t26 ** 2";
  "t47 = t34 ** 2";
  "t49 = t24 / t19 / t42 / r0 / t47";
  "t53 = t40 * s0";
  "t55 = t42 ** 2";
  "t59 = 0.1e1 / t55 / t47 / t34";
  "t80 = lax_cond(t13, 0.1e1 / t14, 0.1e1 / t16)";
  "t83 = 0.1e1 + 0.39999999999999999998e0 / t19 * t24 * t80";
  "t100 = t83 ** 2";
  "t124 = lax_cond(r0 / 0.2e1 <= p_a_dens_threshold, 0, -0.3e1 / 0.8e1 * t3 / t4 * t18 * t19 * (params_a_CC_0_[0] + 0.4e-2 * params_a_CC_0_[1] * s0 * t36 + 0.32e-4 * params_a_CC_0_[2] * t40 * t49 + 0.256e-6 * params_a_CC_0_[3] * t53 * t59 + (params_a_CC_1_[0] + 0.4e-2 * params_a_CC_1_[1] * s0 * t36 + 0.32e-4 * params_a_CC_1_[2] * t40 * t49 + 0.256e-6 * params_a_CC_1_[3] * t53 * t59) / t83 + (params_a_CC_2_[0] + 0.4e-2 * params_a_CC_2_[1] * s0 * t36 + 0.32e-4 * params_a_CC_2_[2] * t40 * t49 + 0.256e-6 * params_a_CC_2_[3] * t53 * t59) / t100 + (params_a_CC_3_[0] + 0.4e-2 * params_a_CC_3_[1] * s0 * t36 + 0.32e-4 * params_a_CC_3_[2] * t40 * t49 + 0.256e-6 * params_a_CC_3_[3] * t53 * t59) / t100 / t83))";
  "res = 0.2e1 * t124"]%b.

(** unsafe/SIMDLowAVX512.pyi: for each method the declared parameter types
    (P: Ptr, i: int, e: an IntEnum) and whether it is declared to raise NotImplementedError. *)
From Coq Require Import List String.
Import ListNotations.
Local Open Scope string_scope.

Definition avx512_stub : list (string * string * bool) := [
  ("_mm512_int2mask", "Pi", false);
  ("_mm512_mask2int", "PP", false);
  ("_mm512_set_epi64", "Piiiiiiii", false);
  ("_mm512_set_epi32", "Piiiiiiiiiiiiiiii", false);
  ("_mm512_set_epi16", "Piiiiiiiiiiiiiiiiiiiiiiiiiiiiiiii", false);
  ("_mm512_set_epi8", "Piiiiiiiiiiiiiiiiiiiiiiiiiiiiiiiiiiiiiiiiiiiiiiiiiiiiiiiiiiiiiiii", false);
  ("_mm512_set_pd", "Piiiiiiii", false);
  ("_mm512_set_ps", "Piiiiiiiiiiiiiiii", false);
  ("_mm512_undefined_ps", "P", false);
  ("_mm512_undefined_pd", "P", false);
  ("_mm512_undefined_epi32", "P", false);
  ("_mm512_set1_epi8", "Pi", false);
  ("_mm512_set1_epi16", "Pi", false);
  ("_mm512_set1_pd", "Pi", false);
  ("_mm512_set1_ps", "Pi", false);
  ("_mm512_set4_epi32", "Piiii", true);
  ("_mm512_set4_epi64", "Piiii", false);
  ("_mm512_set4_pd", "Piiii", false);
  ("_mm512_set4_ps", "Piiii", false);
  ("_mm512_setzero_ps", "P", false);
  ("_mm512_setzero", "P", false);
  ("_mm512_setzero_pd", "P", false);
  ("_mm512_setzero_epi32", "P", false);
  ("_mm512_setzero_si512", "P", false);
  ("_mm512_mask_mov_pd", "PPPP", false);
  ("_mm512_maskz_mov_pd", "PPP", false);
  ("_mm512_mask_mov_ps", "PPPP", false);
  ("_mm512_maskz_mov_ps", "PPP", false);
  ("_mm512_load_pd", "PP", false);
  ("_mm512_mask_load_pd", "PPPP", false);
  ("_mm512_maskz_load_pd", "PPP", false);
  ("_mm512_store_pd", "PP", false);
  ("_mm512_mask_store_pd", "PPP", false);
  ("_mm512_load_ps", "PP", false);
  ("_mm512_mask_load_ps", "PPPP", false);
  ("_mm512_maskz_load_ps", "PPP", false);
  ("_mm512_store_ps", "PP", false);
  ("_mm512_mask_store_ps", "PPP", false);
  ("_mm512_mask_mov_epi64", "PPPP", false);
  ("_mm512_maskz_mov_epi64", "PPP", false);
  ("_mm512_load_epi64", "PP", false);
  ("_mm512_mask_load_epi64", "PPPP", false);
  ("_mm512_maskz_load_epi64", "PPP", false);
  ("_mm512_store_epi64", "PP", false);
  ("_mm512_mask_store_epi64", "PPP", false);
  ("_mm512_mask_mov_epi32", "PPPP", false);
  ("_mm512_maskz_mov_epi32", "PPP", false);
  ("_mm512_load_si512", "PP", false);
  ("_mm512_load_epi32", "PP", false);
  ("_mm512_mask_load_epi32", "PPPP", false);
  ("_mm512_maskz_load_epi32", "PPP", false);
  ("_mm512_store_si512", "PP", false);
  ("_mm512_store_epi32", "PP", false);
  ("_mm512_mask_store_epi32", "PPP", false);
  ("_mm512_mullo_epi32", "PPP", false);
  ("_mm512_maskz_mullo_epi32", "PPPP", false);
  ("_mm512_mask_mullo_epi32", "PPPPP", false);
  ("_mm512_mullox_epi64", "PPP", false);
  ("_mm512_mask_mullox_epi64", "PPPPP", false);
  ("_mm512_sllv_epi32", "PPP", false);
  ("_mm512_mask_sllv_epi32", "PPPPP", false);
  ("_mm512_maskz_sllv_epi32", "PPPP", false);
  ("_mm512_srav_epi32", "PPP", false);
  ("_mm512_mask_srav_epi32", "PPPPP", false);
  ("_mm512_maskz_srav_epi32", "PPPP", false);
  ("_mm512_srlv_epi32", "PPP", false);
  ("_mm512_mask_srlv_epi32", "PPPPP", false);
  ("_mm512_maskz_srlv_epi32", "PPPP", false);
  ("_mm512_add_epi64", "PPP", false);
  ("_mm512_mask_add_epi64", "PPPPP", false);
  ("_mm512_maskz_add_epi64", "PPPP", false);
  ("_mm512_sub_epi64", "PPP", false);
  ("_mm512_mask_sub_epi64", "PPPPP", false);
  ("_mm512_maskz_sub_epi64", "PPPP", false);
  ("_mm512_sllv_epi64", "PPP", false);
  ("_mm512_mask_sllv_epi64", "PPPPP", false);
  ("_mm512_maskz_sllv_epi64", "PPPP", false);
  ("_mm512_srav_epi64", "PPP", false);
  ("_mm512_mask_srav_epi64", "PPPPP", false);
  ("_mm512_maskz_srav_epi64", "PPPP", false);
  ("_mm512_srlv_epi64", "PPP", false);
  ("_mm512_mask_srlv_epi64", "PPPPP", false);
  ("_mm512_maskz_srlv_epi64", "PPPP", false);
  ("_mm512_add_epi32", "PPP", false);
  ("_mm512_mask_add_epi32", "PPPPP", false);
  ("_mm512_maskz_add_epi32", "PPPP", false);
  ("_mm512_mul_epi32", "PPP", false);
  ("_mm512_mask_mul_epi32", "PPPPP", false);
  ("_mm512_maskz_mul_epi32", "PPPP", false);
  ("_mm512_sub_epi32", "PPP", false);
  ("_mm512_mask_sub_epi32", "PPPPP", false);
  ("_mm512_maskz_sub_epi32", "PPPP", false);
  ("_mm512_mul_epu32", "PPP", false);
  ("_mm512_mask_mul_epu32", "PPPPP", false);
  ("_mm512_maskz_mul_epu32", "PPPP", false);
  ("_mm512_slli_epi64", "PPi", false);
  ("_mm512_mask_slli_epi64", "PPPPi", false);
  ("_mm512_maskz_slli_epi64", "PPPi", false);
  ("_mm512_sll_epi64", "PPP", false);
  ("_mm512_mask_sll_epi64", "PPPPP", false);
  ("_mm512_maskz_sll_epi64", "PPPP", false);
  ("_mm512_srli_epi64", "PPi", false);
  ("_mm512_mask_srli_epi64", "PPPPi", false);
  ("_mm512_maskz_srli_epi64", "PPPi", false);
  ("_mm512_srl_epi64", "PPP", false);
  ("_mm512_mask_srl_epi64", "PPPPP", false);
  ("_mm512_maskz_srl_epi64", "PPPP", false);
  ("_mm512_srai_epi64", "PPi", false);
  ("_mm512_mask_srai_epi64", "PPPPi", false);
  ("_mm512_maskz_srai_epi64", "PPPi", false);
  ("_mm512_sra_epi64", "PPP", false);
  ("_mm512_mask_sra_epi64", "PPPPP", false);
  ("_mm512_maskz_sra_epi64", "PPPP", false);
  ("_mm512_slli_epi32", "PPi", false);
  ("_mm512_mask_slli_epi32", "PPPPi", false);
  ("_mm512_maskz_slli_epi32", "PPPi", false);
  ("_mm512_sll_epi32", "PPP", false);
  ("_mm512_mask_sll_epi32", "PPPPP", false);
  ("_mm512_maskz_sll_epi32", "PPPP", false);
  ("_mm512_srli_epi32", "PPi", false);
  ("_mm512_mask_srli_epi32", "PPPPi", false);
  ("_mm512_maskz_srli_epi32", "PPPi", false);
  ("_mm512_srl_epi32", "PPP", false);
  ("_mm512_mask_srl_epi32", "PPPPP", false);
  ("_mm512_maskz_srl_epi32", "PPPP", false);
  ("_mm512_srai_epi32", "PPi", false);
  ("_mm512_mask_srai_epi32", "PPPPi", false);
  ("_mm512_maskz_srai_epi32", "PPPi", false);
  ("_mm512_sra_epi32", "PPP", false);
  ("_mm512_mask_sra_epi32", "PPPPP", false);
  ("_mm512_maskz_sra_epi32", "PPPP", false);
  ("_mm_add_round_sd", "PPPi", true);
  ("_mm_mask_add_round_sd", "PPPPPi", true);
  ("_mm_maskz_add_round_sd", "PPPPi", true);
  ("_mm_add_round_ss", "PPPi", true);
  ("_mm_mask_add_round_ss", "PPPPPi", true);
  ("_mm_maskz_add_round_ss", "PPPPi", true);
  ("_mm_sub_round_sd", "PPPi", true);
  ("_mm_mask_sub_round_sd", "PPPPPi", true);
  ("_mm_maskz_sub_round_sd", "PPPPi", true);
  ("_mm_sub_round_ss", "PPPi", true);
  ("_mm_mask_sub_round_ss", "PPPPPi", true);
  ("_mm_maskz_sub_round_ss", "PPPPi", true);
  ("_mm512_ternarylogic_epi64", "PPPPi", true);
  ("_mm512_mask_ternarylogic_epi64", "PPPPPi", true);
  ("_mm512_maskz_ternarylogic_epi64", "PPPPPi", true);
  ("_mm512_ternarylogic_epi32", "PPPPi", true);
  ("_mm512_mask_ternarylogic_epi32", "PPPPPi", true);
  ("_mm512_maskz_ternarylogic_epi32", "PPPPPi", true);
  ("_mm512_rcp14_pd", "PP", false);
  ("_mm512_mask_rcp14_pd", "PPPP", false);
  ("_mm512_maskz_rcp14_pd", "PPP", false);
  ("_mm512_rcp14_ps", "PP", false);
  ("_mm512_mask_rcp14_ps", "PPPP", false);
  ("_mm512_maskz_rcp14_ps", "PPP", false);
  ("_mm_rcp14_sd", "PPP", false);
  ("_mm_mask_rcp14_sd", "PPPPP", false);
  ("_mm_maskz_rcp14_sd", "PPPP", false);
  ("_mm_rcp14_ss", "PPP", false);
  ("_mm_mask_rcp14_ss", "PPPPP", false);
  ("_mm_maskz_rcp14_ss", "PPPP", false);
  ("_mm512_rsqrt14_pd", "PP", false);
  ("_mm512_mask_rsqrt14_pd", "PPPP", false);
  ("_mm512_maskz_rsqrt14_pd", "PPP", false);
  ("_mm512_rsqrt14_ps", "PP", false);
  ("_mm512_mask_rsqrt14_ps", "PPPP", false);
  ("_mm512_maskz_rsqrt14_ps", "PPP", false);
  ("_mm_rsqrt14_sd", "PPP", false);
  ("_mm_mask_rsqrt14_sd", "PPPPP", false);
  ("_mm_maskz_rsqrt14_sd", "PPPP", false);
  ("_mm_rsqrt14_ss", "PPP", false);
  ("_mm_mask_rsqrt14_ss", "PPPPP", false);
  ("_mm_maskz_rsqrt14_ss", "PPPP", false);
  ("_mm512_sqrt_round_pd", "PPi", true);
  ("_mm512_mask_sqrt_round_pd", "PPPPi", true);
  ("_mm512_maskz_sqrt_round_pd", "PPPi", true);
  ("_mm512_sqrt_round_ps", "PPi", true);
  ("_mm512_mask_sqrt_round_ps", "PPPPi", true);
  ("_mm512_maskz_sqrt_round_ps", "PPPi", true);
  ("_mm_sqrt_round_sd", "PPPi", true);
  ("_mm_mask_sqrt_round_sd", "PPPPPi", true);
  ("_mm_maskz_sqrt_round_sd", "PPPPi", true);
  ("_mm_sqrt_round_ss", "PPPi", true);
  ("_mm_mask_sqrt_round_ss", "PPPPPi", true);
  ("_mm_maskz_sqrt_round_ss", "PPPPi", true);
  ("_mm512_cvtepi8_epi32", "PP", false);
  ("_mm512_mask_cvtepi8_epi32", "PPPP", false);
  ("_mm512_maskz_cvtepi8_epi32", "PPP", false);
  ("_mm512_cvtepi8_epi64", "PP", false);
  ("_mm512_mask_cvtepi8_epi64", "PPPP", false);
  ("_mm512_maskz_cvtepi8_epi64", "PPP", false);
  ("_mm512_cvtepi16_epi32", "PP", false);
  ("_mm512_mask_cvtepi16_epi32", "PPPP", false);
  ("_mm512_maskz_cvtepi16_epi32", "PPP", false);
  ("_mm512_cvtepi16_epi64", "PP", false);
  ("_mm512_mask_cvtepi16_epi64", "PPPP", false);
  ("_mm512_maskz_cvtepi16_epi64", "PPP", false);
  ("_mm512_cvtepi32_epi64", "PP", false);
  ("_mm512_mask_cvtepi32_epi64", "PPPP", false);
  ("_mm512_maskz_cvtepi32_epi64", "PPP", false);
  ("_mm512_cvtepu8_epi32", "PP", false);
  ("_mm512_mask_cvtepu8_epi32", "PPPP", false);
  ("_mm512_maskz_cvtepu8_epi32", "PPP", false);
  ("_mm512_cvtepu8_epi64", "PP", false);
  ("_mm512_mask_cvtepu8_epi64", "PPPP", false);
  ("_mm512_maskz_cvtepu8_epi64", "PPP", false);
  ("_mm512_cvtepu16_epi32", "PP", false);
  ("_mm512_mask_cvtepu16_epi32", "PPPP", false);
  ("_mm512_maskz_cvtepu16_epi32", "PPP", false);
  ("_mm512_cvtepu16_epi64", "PP", false);
  ("_mm512_mask_cvtepu16_epi64", "PPPP", false);
  ("_mm512_maskz_cvtepu16_epi64", "PPP", false);
  ("_mm512_cvtepu32_epi64", "PP", false);
  ("_mm512_mask_cvtepu32_epi64", "PPPP", false);
  ("_mm512_maskz_cvtepu32_epi64", "PPP", false);
  ("_mm512_add_round_pd", "PPPi", false);
  ("_mm512_mask_add_round_pd", "PPPPPi", true);
  ("_mm512_maskz_add_round_pd", "PPPPi", true);
  ("_mm512_add_round_ps", "PPPi", true);
  ("_mm512_mask_add_round_ps", "PPPPPi", true);
  ("_mm512_maskz_add_round_ps", "PPPPi", true);
  ("_mm512_sub_round_pd", "PPPi", true);
  ("_mm512_mask_sub_round_pd", "PPPPPi", true);
  ("_mm512_maskz_sub_round_pd", "PPPPi", true);
  ("_mm512_sub_round_ps", "PPPi", false);
  ("_mm512_mask_sub_round_ps", "PPPPPi", true);
  ("_mm512_maskz_sub_round_ps", "PPPPi", true);
  ("_mm512_mul_round_pd", "PPPi", true);
  ("_mm512_mask_mul_round_pd", "PPPPPi", true);
  ("_mm512_maskz_mul_round_pd", "PPPPi", true);
  ("_mm512_mul_round_ps", "PPPi", false);
  ("_mm512_mask_mul_round_ps", "PPPPPi", true);
  ("_mm512_maskz_mul_round_ps", "PPPPi", true);
  ("_mm512_div_round_pd", "PPPi", false);
  ("_mm512_mask_div_round_pd", "PPPPPi", true);
  ("_mm512_maskz_div_round_pd", "PPPPi", true);
  ("_mm512_div_round_ps", "PPPi", true);
  ("_mm512_mask_div_round_ps", "PPPPPi", true);
  ("_mm512_maskz_div_round_ps", "PPPPi", true);
  ("_mm_mul_round_sd", "PPPi", true);
  ("_mm_mask_mul_round_sd", "PPPPPi", true);
  ("_mm_maskz_mul_round_sd", "PPPPi", true);
  ("_mm_mul_round_ss", "PPPi", true);
  ("_mm_mask_mul_round_ss", "PPPPPi", true);
  ("_mm_maskz_mul_round_ss", "PPPPi", true);
  ("_mm_div_round_sd", "PPPi", true);
  ("_mm_mask_div_round_sd", "PPPPPi", true);
  ("_mm_maskz_div_round_sd", "PPPPi", true);
  ("_mm_div_round_ss", "PPPi", true);
  ("_mm_mask_div_round_ss", "PPPPPi", true);
  ("_mm_maskz_div_round_ss", "PPPPi", true);
  ("_mm512_max_round_pd", "PPPi", true);
  ("_mm512_mask_max_round_pd", "PPPPPi", true);
  ("_mm512_maskz_max_round_pd", "PPPPi", true);
  ("_mm512_max_round_ps", "PPPi", true);
  ("_mm512_mask_max_round_ps", "PPPPPi", true);
  ("_mm512_maskz_max_round_ps", "PPPPi", true);
  ("_mm512_min_round_pd", "PPPi", true);
  ("_mm512_mask_min_round_pd", "PPPPPi", true);
  ("_mm512_maskz_min_round_pd", "PPPPi", true);
  ("_mm512_min_round_ps", "PPPi", true);
  ("_mm512_mask_min_round_ps", "PPPPPi", true);
  ("_mm512_maskz_min_round_ps", "PPPPi", true);
  ("_mm512_scalef_round_pd", "PPPi", true);
  ("_mm512_mask_scalef_round_pd", "PPPPPi", true);
  ("_mm512_maskz_scalef_round_pd", "PPPPi", true);
  ("_mm512_scalef_round_ps", "PPPi", true);
  ("_mm512_mask_scalef_round_ps", "PPPPPi", true);
  ("_mm512_maskz_scalef_round_ps", "PPPPi", true);
  ("_mm_scalef_round_sd", "PPPi", true);
  ("_mm_mask_scalef_round_sd", "PPPPPi", true);
  ("_mm_maskz_scalef_round_sd", "PPPPi", true);
  ("_mm_scalef_round_ss", "PPPi", true);
  ("_mm_mask_scalef_round_ss", "PPPPPi", true);
  ("_mm_maskz_scalef_round_ss", "PPPPi", true);
  ("_mm512_fmadd_round_pd", "PPPPi", true);
  ("_mm512_mask_fmadd_round_pd", "PPPPPi", true);
  ("_mm512_mask3_fmadd_round_pd", "PPPPPi", true);
  ("_mm512_maskz_fmadd_round_pd", "PPPPPi", true);
  ("_mm512_fmadd_round_ps", "PPPPi", true);
  ("_mm512_mask_fmadd_round_ps", "PPPPPi", true);
  ("_mm512_mask3_fmadd_round_ps", "PPPPPi", true);
  ("_mm512_maskz_fmadd_round_ps", "PPPPPi", true);
  ("_mm512_fmsub_round_pd", "PPPPi", true);
  ("_mm512_mask_fmsub_round_pd", "PPPPPi", true);
  ("_mm512_mask3_fmsub_round_pd", "PPPPPi", true);
  ("_mm512_maskz_fmsub_round_pd", "PPPPPi", true);
  ("_mm512_fmsub_round_ps", "PPPPi", true);
  ("_mm512_mask_fmsub_round_ps", "PPPPPi", true);
  ("_mm512_mask3_fmsub_round_ps", "PPPPPi", true);
  ("_mm512_maskz_fmsub_round_ps", "PPPPPi", true);
  ("_mm512_fmaddsub_round_pd", "PPPPi", true);
  ("_mm512_mask_fmaddsub_round_pd", "PPPPPi", true);
  ("_mm512_mask3_fmaddsub_round_pd", "PPPPPi", true);
  ("_mm512_maskz_fmaddsub_round_pd", "PPPPPi", true);
  ("_mm512_fmaddsub_round_ps", "PPPPi", true);
  ("_mm512_mask_fmaddsub_round_ps", "PPPPPi", true);
  ("_mm512_mask3_fmaddsub_round_ps", "PPPPPi", true);
  ("_mm512_maskz_fmaddsub_round_ps", "PPPPPi", true);
  ("_mm512_fmsubadd_round_pd", "PPPPi", true);
  ("_mm512_mask_fmsubadd_round_pd", "PPPPPi", true);
  ("_mm512_mask3_fmsubadd_round_pd", "PPPPPi", true);
  ("_mm512_maskz_fmsubadd_round_pd", "PPPPPi", true);
  ("_mm512_fmsubadd_round_ps", "PPPPi", true);
  ("_mm512_mask_fmsubadd_round_ps", "PPPPPi", true);
  ("_mm512_mask3_fmsubadd_round_ps", "PPPPPi", true);
  ("_mm512_maskz_fmsubadd_round_ps", "PPPPPi", true);
  ("_mm512_fnmadd_round_pd", "PPPPi", true);
  ("_mm512_mask_fnmadd_round_pd", "PPPPPi", true);
  ("_mm512_mask3_fnmadd_round_pd", "PPPPPi", true);
  ("_mm512_maskz_fnmadd_round_pd", "PPPPPi", true);
  ("_mm512_fnmadd_round_ps", "PPPPi", true);
  ("_mm512_mask_fnmadd_round_ps", "PPPPPi", true);
  ("_mm512_mask3_fnmadd_round_ps", "PPPPPi", true);
  ("_mm512_maskz_fnmadd_round_ps", "PPPPPi", true);
  ("_mm512_fnmsub_round_pd", "PPPPi", true);
  ("_mm512_mask_fnmsub_round_pd", "PPPPPi", true);
  ("_mm512_mask3_fnmsub_round_pd", "PPPPPi", true);
  ("_mm512_maskz_fnmsub_round_pd", "PPPPPi", true);
  ("_mm512_fnmsub_round_ps", "PPPPi", true);
  ("_mm512_mask_fnmsub_round_ps", "PPPPPi", true);
  ("_mm512_mask3_fnmsub_round_ps", "PPPPPi", true);
  ("_mm512_maskz_fnmsub_round_ps", "PPPPPi", true);
  ("_mm512_abs_epi64", "PP", false);
  ("_mm512_mask_abs_epi64", "PPPP", false);
  ("_mm512_maskz_abs_epi64", "PPP", false);
  ("_mm512_abs_epi32", "PP", false);
  ("_mm512_mask_abs_epi32", "PPPP", false);
  ("_mm512_maskz_abs_epi32", "PPP", false);
  ("_mm512_broadcastss_ps", "PP", false);
  ("_mm512_mask_broadcastss_ps", "PPPP", false);
  ("_mm512_maskz_broadcastss_ps", "PPP", false);
  ("_mm512_broadcastsd_pd", "PP", false);
  ("_mm512_mask_broadcastsd_pd", "PPPP", false);
  ("_mm512_maskz_broadcastsd_pd", "PPP", false);
  ("_mm512_broadcastd_epi32", "PP", false);
  ("_mm512_mask_broadcastd_epi32", "PPPP", false);
  ("_mm512_maskz_broadcastd_epi32", "PPP", false);
  ("_mm512_set1_epi32", "Pi", true);
  ("_mm512_mask_set1_epi32", "PPPi", true);
  ("_mm512_maskz_set1_epi32", "PPi", true);
  ("_mm512_broadcastq_epi64", "PP", false);
  ("_mm512_mask_broadcastq_epi64", "PPPP", false);
  ("_mm512_maskz_broadcastq_epi64", "PPP", false);
  ("_mm512_set1_epi64", "Pi", false);
  ("_mm512_mask_set1_epi64", "PPPi", false);
  ("_mm512_maskz_set1_epi64", "PPi", false);
  ("_mm512_broadcast_f32x4", "PP", false);
  ("_mm512_mask_broadcast_f32x4", "PPPP", false);
  ("_mm512_maskz_broadcast_f32x4", "PPP", false);
  ("_mm512_broadcast_i32x4", "PP", false);
  ("_mm512_mask_broadcast_i32x4", "PPPP", false);
  ("_mm512_maskz_broadcast_i32x4", "PPP", false);
  ("_mm512_broadcast_f64x4", "PP", false);
  ("_mm512_mask_broadcast_f64x4", "PPPP", false);
  ("_mm512_maskz_broadcast_f64x4", "PPP", false);
  ("_mm512_broadcast_i64x4", "PP", false);
  ("_mm512_mask_broadcast_i64x4", "PPPP", false);
  ("_mm512_maskz_broadcast_i64x4", "PPP", false);
  ("_mm512_shuffle_epi32", "PPe", false);
  ("_mm512_mask_shuffle_epi32", "PPPPe", false);
  ("_mm512_maskz_shuffle_epi32", "PPPe", false);
  ("_mm512_shuffle_i64x2", "PPPi", true);
  ("_mm512_mask_shuffle_i64x2", "PPPPPi", true);
  ("_mm512_maskz_shuffle_i64x2", "PPPPi", true);
  ("_mm512_shuffle_i32x4", "PPPi", true);
  ("_mm512_mask_shuffle_i32x4", "PPPPPi", true);
  ("_mm512_maskz_shuffle_i32x4", "PPPPi", true);
  ("_mm512_shuffle_f64x2", "PPPi", true);
  ("_mm512_mask_shuffle_f64x2", "PPPPPi", true);
  ("_mm512_maskz_shuffle_f64x2", "PPPPi", true);
  ("_mm512_shuffle_f32x4", "PPPi", true);
  ("_mm512_mask_shuffle_f32x4", "PPPPPi", true);
  ("_mm512_maskz_shuffle_f32x4", "PPPPi", true);
  ("_mm512_rolv_epi32", "PPP", false);
  ("_mm512_mask_rolv_epi32", "PPPPP", false);
  ("_mm512_maskz_rolv_epi32", "PPPP", false);
  ("_mm512_rorv_epi32", "PPP", false);
  ("_mm512_mask_rorv_epi32", "PPPPP", false);
  ("_mm512_maskz_rorv_epi32", "PPPP", false);
  ("_mm512_rolv_epi64", "PPP", false);
  ("_mm512_mask_rolv_epi64", "PPPPP", false);
  ("_mm512_maskz_rolv_epi64", "PPPP", false);
  ("_mm512_rorv_epi64", "PPP", false);
  ("_mm512_mask_rorv_epi64", "PPPPP", false);
  ("_mm512_maskz_rorv_epi64", "PPPP", false);
  ("_mm512_cvtt_roundpd_epi32", "PPi", true);
  ("_mm512_mask_cvtt_roundpd_epi32", "PPPPi", true);
  ("_mm512_maskz_cvtt_roundpd_epi32", "PPPi", true);
  ("_mm512_cvtt_roundpd_epu32", "PPi", true);
  ("_mm512_mask_cvtt_roundpd_epu32", "PPPPi", true);
  ("_mm512_maskz_cvtt_roundpd_epu32", "PPPi", true);
  ("_mm512_cvt_roundpd_epi32", "PPi", true);
  ("_mm512_mask_cvt_roundpd_epi32", "PPPPi", true);
  ("_mm512_maskz_cvt_roundpd_epi32", "PPPi", true);
  ("_mm512_cvt_roundpd_epu32", "PPi", true);
  ("_mm512_mask_cvt_roundpd_epu32", "PPPPi", true);
  ("_mm512_maskz_cvt_roundpd_epu32", "PPPi", true);
  ("_mm512_cvtt_roundps_epi32", "PPi", true);
  ("_mm512_mask_cvtt_roundps_epi32", "PPPPi", true);
  ("_mm512_maskz_cvtt_roundps_epi32", "PPPi", true);
  ("_mm512_cvtt_roundps_epu32", "PPi", true);
  ("_mm512_mask_cvtt_roundps_epu32", "PPPPi", true);
  ("_mm512_maskz_cvtt_roundps_epu32", "PPPi", true);
  ("_mm512_cvt_roundps_epi32", "PPi", true);
  ("_mm512_mask_cvt_roundps_epi32", "PPPPi", true);
  ("_mm512_maskz_cvt_roundps_epi32", "PPPi", true);
  ("_mm512_cvt_roundps_epu32", "PPi", true);
  ("_mm512_mask_cvt_roundps_epu32", "PPPPi", true);
  ("_mm512_maskz_cvt_roundps_epu32", "PPPi", true);
  ("_mm_cvtu32_sd", "PPi", false);
  ("_mm_cvt_roundu64_sd", "PPii", true);
  ("_mm_cvt_roundi64_sd", "PPii", true);
  ("_mm_cvt_roundsi64_sd", "PPii", true);
  ("_mm_cvt_roundu32_ss", "PPii", true);
  ("_mm_cvt_roundsi32_ss", "PPii", true);
  ("_mm_cvt_roundi32_ss", "PPii", true);
  ("_mm_cvt_roundu64_ss", "PPii", true);
  ("_mm_cvt_roundsi64_ss", "PPii", true);
  ("_mm_cvt_roundi64_ss", "PPii", true);
  ("_mm512_cvtepi32_epi8", "PP", false);
  ("_mm512_mask_cvtepi32_storeu_epi8", "PPP", false);
  ("_mm512_mask_cvtepi32_epi8", "PPPP", false);
  ("_mm512_maskz_cvtepi32_epi8", "PPP", false);
  ("_mm512_cvtsepi32_epi8", "PP", false);
  ("_mm512_mask_cvtsepi32_storeu_epi8", "PPP", false);
  ("_mm512_mask_cvtsepi32_epi8", "PPPP", false);
  ("_mm512_maskz_cvtsepi32_epi8", "PPP", false);
  ("_mm512_cvtusepi32_epi8", "PP", false);
  ("_mm512_mask_cvtusepi32_storeu_epi8", "PPP", false);
  ("_mm512_mask_cvtusepi32_epi8", "PPPP", false);
  ("_mm512_maskz_cvtusepi32_epi8", "PPP", false);
  ("_mm512_cvtepi32_epi16", "PP", false);
  ("_mm512_mask_cvtepi32_storeu_epi16", "PPP", false);
  ("_mm512_mask_cvtepi32_epi16", "PPPP", false);
  ("_mm512_maskz_cvtepi32_epi16", "PPP", false);
  ("_mm512_cvtsepi32_epi16", "PP", false);
  ("_mm512_mask_cvtsepi32_storeu_epi16", "PPP", false);
  ("_mm512_mask_cvtsepi32_epi16", "PPPP", false);
  ("_mm512_maskz_cvtsepi32_epi16", "PPP", false);
  ("_mm512_cvtusepi32_epi16", "PP", false);
  ("_mm512_mask_cvtusepi32_storeu_epi16", "PPP", false);
  ("_mm512_mask_cvtusepi32_epi16", "PPPP", false);
  ("_mm512_maskz_cvtusepi32_epi16", "PPP", false);
  ("_mm512_cvtepi64_epi32", "PP", false);
  ("_mm512_mask_cvtepi64_storeu_epi32", "PPP", false);
  ("_mm512_mask_cvtepi64_epi32", "PPPP", false);
  ("_mm512_maskz_cvtepi64_epi32", "PPP", false);
  ("_mm512_cvtsepi64_epi32", "PP", false);
  ("_mm512_mask_cvtsepi64_storeu_epi32", "PPP", false);
  ("_mm512_mask_cvtsepi64_epi32", "PPPP", false);
  ("_mm512_maskz_cvtsepi64_epi32", "PPP", false);
  ("_mm512_cvtusepi64_epi32", "PP", false);
  ("_mm512_mask_cvtusepi64_storeu_epi32", "PPP", false);
  ("_mm512_mask_cvtusepi64_epi32", "PPPP", false);
  ("_mm512_maskz_cvtusepi64_epi32", "PPP", false);
  ("_mm512_cvtepi64_epi16", "PP", false);
  ("_mm512_mask_cvtepi64_storeu_epi16", "PPP", false);
  ("_mm512_mask_cvtepi64_epi16", "PPPP", false);
  ("_mm512_maskz_cvtepi64_epi16", "PPP", false);
  ("_mm512_cvtsepi64_epi16", "PP", false);
  ("_mm512_mask_cvtsepi64_storeu_epi16", "PPP", false);
  ("_mm512_mask_cvtsepi64_epi16", "PPPP", false);
  ("_mm512_maskz_cvtsepi64_epi16", "PPP", false);
  ("_mm512_cvtusepi64_epi16", "PP", false);
  ("_mm512_mask_cvtusepi64_storeu_epi16", "PPP", false);
  ("_mm512_mask_cvtusepi64_epi16", "PPPP", false);
  ("_mm512_maskz_cvtusepi64_epi16", "PPP", false);
  ("_mm512_cvtepi64_epi8", "PP", false);
  ("_mm512_mask_cvtepi64_storeu_epi8", "PPP", false);
  ("_mm512_mask_cvtepi64_epi8", "PPPP", false);
  ("_mm512_maskz_cvtepi64_epi8", "PPP", false);
  ("_mm512_cvtsepi64_epi8", "PP", false);
  ("_mm512_mask_cvtsepi64_storeu_epi8", "PPP", false);
  ("_mm512_mask_cvtsepi64_epi8", "PPPP", false);
  ("_mm512_maskz_cvtsepi64_epi8", "PPP", false);
  ("_mm512_cvtusepi64_epi8", "PP", false);
  ("_mm512_mask_cvtusepi64_storeu_epi8", "PPP", false);
  ("_mm512_mask_cvtusepi64_epi8", "PPPP", false);
  ("_mm512_maskz_cvtusepi64_epi8", "PPP", false);
  ("_mm512_cvtepi32_pd", "PP", false);
  ("_mm512_mask_cvtepi32_pd", "PPPP", false);
  ("_mm512_maskz_cvtepi32_pd", "PPP", false);
  ("_mm512_cvtepu32_pd", "PP", false);
  ("_mm512_mask_cvtepu32_pd", "PPPP", false);
  ("_mm512_maskz_cvtepu32_pd", "PPP", false);
  ("_mm512_cvt_roundepi32_ps", "PPi", true);
  ("_mm512_mask_cvt_roundepi32_ps", "PPPPi", true);
  ("_mm512_maskz_cvt_roundepi32_ps", "PPPi", true);
  ("_mm512_cvt_roundepu32_ps", "PPi", true);
  ("_mm512_mask_cvt_roundepu32_ps", "PPPPi", true);
  ("_mm512_maskz_cvt_roundepu32_ps", "PPPi", true);
  ("_mm512_extractf64x4_pd", "PPi", true);
  ("_mm512_mask_extractf64x4_pd", "PPPPi", true);
  ("_mm512_maskz_extractf64x4_pd", "PPPi", true);
  ("_mm512_extractf32x4_ps", "PPi", true);
  ("_mm512_mask_extractf32x4_ps", "PPPPi", true);
  ("_mm512_maskz_extractf32x4_ps", "PPPi", true);
  ("_mm512_extracti64x4_epi64", "PPi", true);
  ("_mm512_mask_extracti64x4_epi64", "PPPPi", true);
  ("_mm512_maskz_extracti64x4_epi64", "PPPi", true);
  ("_mm512_extracti32x4_epi32", "PPi", true);
  ("_mm512_mask_extracti32x4_epi32", "PPPPi", true);
  ("_mm512_maskz_extracti32x4_epi32", "PPPi", true);
  ("_mm512_inserti32x4", "PPPi", true);
  ("_mm512_insertf32x4", "PPPi", true);
  ("_mm512_inserti64x4", "PPPi", true);
  ("_mm512_mask_inserti64x4", "PPPPPi", true);
  ("_mm512_maskz_inserti64x4", "PPPPi", true);
  ("_mm512_insertf64x4", "PPPi", true);
  ("_mm512_mask_insertf64x4", "PPPPPi", true);
  ("_mm512_maskz_insertf64x4", "PPPPi", true);
  ("_mm512_loadu_pd", "PP", false);
  ("_mm512_mask_loadu_pd", "PPPP", false);
  ("_mm512_maskz_loadu_pd", "PPP", false);
  ("_mm512_storeu_pd", "PP", false);
  ("_mm512_mask_storeu_pd", "PPP", false);
  ("_mm512_loadu_ps", "PP", false);
  ("_mm512_mask_loadu_ps", "PPPP", false);
  ("_mm512_maskz_loadu_ps", "PPP", false);
  ("_mm512_storeu_ps", "PP", false);
  ("_mm512_mask_storeu_ps", "PPP", false);
  ("_mm_mask_load_ss", "PPPP", false);
  ("_mm_maskz_load_ss", "PPP", false);
  ("_mm_mask_load_sd", "PPPP", false);
  ("_mm_maskz_load_sd", "PPP", false);
  ("_mm_mask_move_ss", "PPPPP", false);
  ("_mm_maskz_move_ss", "PPPP", false);
  ("_mm_mask_move_sd", "PPPPP", false);
  ("_mm_maskz_move_sd", "PPPP", false);
  ("_mm_mask_store_ss", "PPP", false);
  ("_mm_mask_store_sd", "PPP", false);
  ("_mm512_loadu_epi64", "PP", false);
  ("_mm512_mask_loadu_epi64", "PPPP", false);
  ("_mm512_maskz_loadu_epi64", "PPP", false);
  ("_mm512_storeu_epi64", "PP", false);
  ("_mm512_mask_storeu_epi64", "PPP", false);
  ("_mm512_loadu_si512", "PP", false);
  ("_mm512_loadu_epi32", "PP", false);
  ("_mm512_mask_loadu_epi32", "PPPP", false);
  ("_mm512_maskz_loadu_epi32", "PPP", false);
  ("_mm512_storeu_si512", "PP", false);
  ("_mm512_storeu_epi32", "PP", false);
  ("_mm512_mask_storeu_epi32", "PPP", false);
  ("_mm512_permutevar_pd", "PPP", false);
  ("_mm512_mask_permutevar_pd", "PPPPP", false);
  ("_mm512_maskz_permutevar_pd", "PPPP", false);
  ("_mm512_permutevar_ps", "PPP", false);
  ("_mm512_mask_permutevar_ps", "PPPPP", false);
  ("_mm512_maskz_permutevar_ps", "PPPP", false);
  ("_mm512_permutex2var_epi64", "PPPP", false);
  ("_mm512_mask_permutex2var_epi64", "PPPPP", false);
  ("_mm512_mask2_permutex2var_epi64", "PPPPP", false);
  ("_mm512_maskz_permutex2var_epi64", "PPPPP", false);
  ("_mm512_permutex2var_epi32", "PPPP", false);
  ("_mm512_mask_permutex2var_epi32", "PPPPP", false);
  ("_mm512_mask2_permutex2var_epi32", "PPPPP", false);
  ("_mm512_maskz_permutex2var_epi32", "PPPPP", false);
  ("_mm512_permutex2var_pd", "PPPP", false);
  ("_mm512_mask_permutex2var_pd", "PPPPP", false);
  ("_mm512_mask2_permutex2var_pd", "PPPPP", false);
  ("_mm512_maskz_permutex2var_pd", "PPPPP", false);
  ("_mm512_permutex2var_ps", "PPPP", false);
  ("_mm512_mask_permutex2var_ps", "PPPPP", false);
  ("_mm512_mask2_permutex2var_ps", "PPPPP", false);
  ("_mm512_maskz_permutex2var_ps", "PPPPP", false);
  ("_mm512_permute_pd", "PPi", true);
  ("_mm512_mask_permute_pd", "PPPPi", true);
  ("_mm512_maskz_permute_pd", "PPPi", true);
  ("_mm512_permute_ps", "PPi", true);
  ("_mm512_mask_permute_ps", "PPPPi", true);
  ("_mm512_maskz_permute_ps", "PPPi", true);
  ("_mm512_permutex_epi64", "PPi", true);
  ("_mm512_mask_permutex_epi64", "PPPPi", true);
  ("_mm512_maskz_permutex_epi64", "PPPi", true);
  ("_mm512_permutex_pd", "PPi", true);
  ("_mm512_mask_permutex_pd", "PPPPi", true);
  ("_mm512_maskz_permutex_pd", "PPPi", true);
  ("_mm512_maskz_permutexvar_epi64", "PPPP", false);
  ("_mm512_permutexvar_epi64", "PPP", false);
  ("_mm512_mask_permutexvar_epi64", "PPPPP", false);
  ("_mm512_maskz_permutexvar_epi32", "PPPP", false);
  ("_mm512_permutexvar_epi32", "PPP", false);
  ("_mm512_mask_permutexvar_epi32", "PPPPP", false);
  ("_mm512_permutexvar_pd", "PPP", false);
  ("_mm512_mask_permutexvar_pd", "PPPPP", false);
  ("_mm512_maskz_permutexvar_pd", "PPPP", false);
  ("_mm512_permutexvar_ps", "PPP", false);
  ("_mm512_mask_permutexvar_ps", "PPPPP", false);
  ("_mm512_maskz_permutexvar_ps", "PPPP", false);
  ("_mm512_shuffle_ps", "PPPi", true);
  ("_mm512_mask_shuffle_ps", "PPPPPi", true);
  ("_mm512_maskz_shuffle_ps", "PPPPi", false);
  ("_mm512_shuffle_pd", "PPPi", true);
  ("_mm512_mask_shuffle_pd", "PPPPPi", true);
  ("_mm512_maskz_shuffle_pd", "PPPPi", true);
  ("_mm512_fixupimm_round_pd", "PPPPii", true);
  ("_mm512_mask_fixupimm_round_pd", "PPPPPii", true);
  ("_mm512_maskz_fixupimm_round_pd", "PPPPPii", true);
  ("_mm512_fixupimm_round_ps", "PPPPii", true);
  ("_mm512_mask_fixupimm_round_ps", "PPPPPii", true);
  ("_mm512_maskz_fixupimm_round_ps", "PPPPPii", true);
  ("_mm_fixupimm_round_sd", "PPPPii", true);
  ("_mm_mask_fixupimm_round_sd", "PPPPPii", true);
  ("_mm_maskz_fixupimm_round_sd", "PPPPPii", true);
  ("_mm_fixupimm_round_ss", "PPPPii", true);
  ("_mm_mask_fixupimm_round_ss", "PPPPPii", true);
  ("_mm_maskz_fixupimm_round_ss", "PPPPPii", true);
  ("_mm512_movehdup_ps", "PP", false);
  ("_mm512_mask_movehdup_ps", "PPPP", false);
  ("_mm512_maskz_movehdup_ps", "PPP", false);
  ("_mm512_moveldup_ps", "PP", false);
  ("_mm512_mask_moveldup_ps", "PPPP", false);
  ("_mm512_maskz_moveldup_ps", "PPP", false);
  ("_mm512_or_si512", "PPP", false);
  ("_mm512_or_epi32", "PPP", false);
  ("_mm512_mask_or_epi32", "PPPPP", false);
  ("_mm512_maskz_or_epi32", "PPPP", false);
  ("_mm512_or_epi64", "PPP", false);
  ("_mm512_mask_or_epi64", "PPPPP", false);
  ("_mm512_maskz_or_epi64", "PPPP", false);
  ("_mm512_xor_si512", "PPP", false);
  ("_mm512_xor_epi32", "PPP", false);
  ("_mm512_mask_xor_epi32", "PPPPP", false);
  ("_mm512_maskz_xor_epi32", "PPPP", false);
  ("_mm512_xor_epi64", "PPP", false);
  ("_mm512_mask_xor_epi64", "PPPPP", false);
  ("_mm512_maskz_xor_epi64", "PPPP", false);
  ("_mm512_rol_epi32", "PPi", true);
  ("_mm512_mask_rol_epi32", "PPPPi", true);
  ("_mm512_maskz_rol_epi32", "PPPi", true);
  ("_mm512_ror_epi32", "PPi", false);
  ("_mm512_mask_ror_epi32", "PPPPi", true);
  ("_mm512_maskz_ror_epi32", "PPPi", false);
  ("_mm512_rol_epi64", "PPi", true);
  ("_mm512_mask_rol_epi64", "PPPPi", true);
  ("_mm512_maskz_rol_epi64", "PPPi", true);
  ("_mm512_ror_epi64", "PPi", true);
  ("_mm512_mask_ror_epi64", "PPPPi", true);
  ("_mm512_maskz_ror_epi64", "PPPi", true);
  ("_mm512_and_si512", "PPP", false);
  ("_mm512_and_epi32", "PPP", false);
  ("_mm512_mask_and_epi32", "PPPPP", false);
  ("_mm512_maskz_and_epi32", "PPPP", false);
  ("_mm512_and_epi64", "PPP", false);
  ("_mm512_mask_and_epi64", "PPPPP", false);
  ("_mm512_maskz_and_epi64", "PPPP", false);
  ("_mm512_andnot_si512", "PPP", false);
  ("_mm512_andnot_epi32", "PPP", false);
  ("_mm512_mask_andnot_epi32", "PPPPP", false);
  ("_mm512_maskz_andnot_epi32", "PPPP", false);
  ("_mm512_andnot_epi64", "PPP", false);
  ("_mm512_mask_andnot_epi64", "PPPPP", false);
  ("_mm512_maskz_andnot_epi64", "PPPP", false);
  ("_mm512_test_epi32_mask", "PPP", false);
  ("_mm512_mask_test_epi32_mask", "PPPP", false);
  ("_mm512_test_epi64_mask", "PPP", false);
  ("_mm512_mask_test_epi64_mask", "PPPP", false);
  ("_mm512_testn_epi32_mask", "PPP", false);
  ("_mm512_mask_testn_epi32_mask", "PPPP", false);
  ("_mm512_testn_epi64_mask", "PPP", false);
  ("_mm512_mask_testn_epi64_mask", "PPPP", false);
  ("_mm512_abs_ps", "PP", false);
  ("_mm512_mask_abs_ps", "PPPP", false);
  ("_mm512_abs_pd", "PP", false);
  ("_mm512_mask_abs_pd", "PPPP", false);
  ("_mm512_unpackhi_epi32", "PPP", false);
  ("_mm512_mask_unpackhi_epi32", "PPPPP", false);
  ("_mm512_maskz_unpackhi_epi32", "PPPP", false);
  ("_mm512_unpackhi_epi64", "PPP", false);
  ("_mm512_mask_unpackhi_epi64", "PPPPP", false);
  ("_mm512_maskz_unpackhi_epi64", "PPPP", false);
  ("_mm512_unpacklo_epi32", "PPP", false);
  ("_mm512_mask_unpacklo_epi32", "PPPPP", false);
  ("_mm512_maskz_unpacklo_epi32", "PPPP", false);
  ("_mm512_unpacklo_epi64", "PPP", false);
  ("_mm512_mask_unpacklo_epi64", "PPPPP", false);
  ("_mm512_maskz_unpacklo_epi64", "PPPP", false);
  ("_mm_cvt_roundss_u64", "PPi", true);
  ("_mm_cvt_roundss_si64", "PPi", true);
  ("_mm_cvt_roundss_i64", "PPi", true);
  ("_mm_cvtt_roundss_u64", "PPi", true);
  ("_mm_cvtt_roundss_i64", "PPi", true);
  ("_mm_cvtt_roundss_si64", "PPi", true);
  ("_mm_cvt_roundss_u32", "PPi", true);
  ("_mm_cvt_roundss_si32", "PPi", true);
  ("_mm_cvt_roundss_i32", "PPi", true);
  ("_mm_cvtt_roundss_u32", "PPi", true);
  ("_mm_cvtt_roundss_i32", "PPi", true);
  ("_mm_cvtt_roundss_si32", "PPi", true);
  ("_mm_cvt_roundsd_u64", "PPi", true);
  ("_mm_cvt_roundsd_si64", "PPi", true);
  ("_mm_cvt_roundsd_i64", "PPi", true);
  ("_mm_cvtt_roundsd_u64", "PPi", true);
  ("_mm_cvtt_roundsd_si64", "PPi", true);
  ("_mm_cvtt_roundsd_i64", "PPi", true);
  ("_mm_cvt_roundsd_u32", "PPi", true);
  ("_mm_cvt_roundsd_si32", "PPi", true);
  ("_mm_cvt_roundsd_i32", "PPi", true);
  ("_mm_cvtt_roundsd_u32", "PPi", true);
  ("_mm_cvtt_roundsd_i32", "PPi", true);
  ("_mm_cvtt_roundsd_si32", "PPi", true);
  ("_mm512_movedup_pd", "PP", false);
  ("_mm512_mask_movedup_pd", "PPPP", false);
  ("_mm512_maskz_movedup_pd", "PPP", false);
  ("_mm512_unpacklo_pd", "PPP", false);
  ("_mm512_mask_unpacklo_pd", "PPPPP", false);
  ("_mm512_maskz_unpacklo_pd", "PPPP", false);
  ("_mm512_unpackhi_pd", "PPP", false);
  ("_mm512_mask_unpackhi_pd", "PPPPP", false);
  ("_mm512_maskz_unpackhi_pd", "PPPP", false);
  ("_mm512_unpackhi_ps", "PPP", false);
  ("_mm512_mask_unpackhi_ps", "PPPPP", false);
  ("_mm512_maskz_unpackhi_ps", "PPPP", false);
  ("_mm512_cvt_roundps_pd", "PPi", true);
  ("_mm512_mask_cvt_roundps_pd", "PPPPi", true);
  ("_mm512_maskz_cvt_roundps_pd", "PPPi", true);
  ("_mm512_cvt_roundph_ps", "PPi", true);
  ("_mm512_mask_cvt_roundph_ps", "PPPPi", true);
  ("_mm512_maskz_cvt_roundph_ps", "PPPi", true);
  ("_mm512_cvt_roundps_ph", "PPi", true);
  ("_mm512_cvtps_ph", "PPi", true);
  ("_mm512_mask_cvt_roundps_ph", "PPPPi", true);
  ("_mm512_mask_cvtps_ph", "PPPPi", true);
  ("_mm512_maskz_cvt_roundps_ph", "PPPi", true);
  ("_mm512_maskz_cvtps_ph", "PPPi", true);
  ("_mm512_cvt_roundpd_ps", "PPi", true);
  ("_mm512_mask_cvt_roundpd_ps", "PPPPi", true);
  ("_mm512_maskz_cvt_roundpd_ps", "PPPi", true);
  ("_mm_cvt_roundsd_ss", "PPPi", true);
  ("_mm_mask_cvt_roundsd_ss", "PPPPPi", true);
  ("_mm_maskz_cvt_roundsd_ss", "PPPPi", true);
  ("_mm_cvt_roundss_sd", "PPPi", true);
  ("_mm_mask_cvt_roundss_sd", "PPPPPi", true);
  ("_mm_maskz_cvt_roundss_sd", "PPPPi", true);
  ("_mm512_stream_si512", "PP", false);
  ("_mm512_stream_ps", "PP", false);
  ("_mm512_stream_pd", "PP", false);
  ("_mm512_stream_load_si512", "PP", false);
  ("_mm_getexp_round_ss", "PPPi", false);
  ("_mm_mask_getexp_round_ss", "PPPPPi", false);
  ("_mm_maskz_getexp_round_ss", "PPPPi", false);
  ("_mm_getexp_round_sd", "PPPi", false);
  ("_mm_mask_getexp_round_sd", "PPPPPi", false);
  ("_mm_maskz_getexp_round_sd", "PPPPi", false);
  ("_mm512_getexp_round_ps", "PPi", false);
  ("_mm512_mask_getexp_round_ps", "PPPPi", true);
  ("_mm512_maskz_getexp_round_ps", "PPPi", true);
  ("_mm512_getexp_round_pd", "PPi", false);
  ("_mm512_mask_getexp_round_pd", "PPPPi", true);
  ("_mm512_maskz_getexp_round_pd", "PPPi", true);
  ("_mm512_getmant_round_pd", "PPeei", false);
  ("_mm512_mask_getmant_round_pd", "PPPPeei", false);
  ("_mm512_maskz_getmant_round_pd", "PPPeei", false);
  ("_mm512_getmant_round_ps", "PPeei", false);
  ("_mm512_mask_getmant_round_ps", "PPPPeei", false);
  ("_mm512_maskz_getmant_round_ps", "PPPeei", false);
  ("_mm_getmant_round_sd", "PPPeei", false);
  ("_mm_mask_getmant_round_sd", "PPPPPeei", true);
  ("_mm_maskz_getmant_round_sd", "PPPPeei", true);
  ("_mm_getmant_round_ss", "PPPeei", true);
  ("_mm_mask_getmant_round_ss", "PPPPPeei", true);
  ("_mm_maskz_getmant_round_ss", "PPPPeei", true);
  ("_mm512_roundscale_round_ps", "PPii", true);
  ("_mm512_mask_roundscale_round_ps", "PPPPii", true);
  ("_mm512_maskz_roundscale_round_ps", "PPPii", true);
  ("_mm512_roundscale_round_pd", "PPii", true);
  ("_mm512_mask_roundscale_round_pd", "PPPPii", true);
  ("_mm512_maskz_roundscale_round_pd", "PPPii", true);
  ("_mm_roundscale_round_ss", "PPPii", true);
  ("_mm_mask_roundscale_round_ss", "PPPPPii", true);
  ("_mm_maskz_roundscale_round_ss", "PPPPii", true);
  ("_mm_roundscale_round_sd", "PPPii", true);
  ("_mm_mask_roundscale_round_sd", "PPPPPii", true);
  ("_mm_maskz_roundscale_round_sd", "PPPPii", true);
  ("_mm512_floor_ps", "PP", false);
  ("_mm512_floor_pd", "PP", false);
  ("_mm512_ceil_ps", "PP", false);
  ("_mm512_ceil_pd", "PP", false);
  ("_mm512_mask_floor_ps", "PPPP", false);
  ("_mm512_mask_floor_pd", "PPPP", false);
  ("_mm512_mask_ceil_ps", "PPPP", false);
  ("_mm512_mask_ceil_pd", "PPPP", false);
  ("_mm512_alignr_epi32", "PPPi", true);
  ("_mm512_mask_alignr_epi32", "PPPPPi", true);
  ("_mm512_maskz_alignr_epi32", "PPPPi", true);
  ("_mm512_alignr_epi64", "PPPi", true);
  ("_mm512_mask_alignr_epi64", "PPPPPi", true);
  ("_mm512_maskz_alignr_epi64", "PPPPi", true);
  ("_mm512_cmpeq_epi32_mask", "PPP", false);
  ("_mm512_mask_cmpeq_epi32_mask", "PPPP", false);
  ("_mm512_mask_cmpeq_epi64_mask", "PPPP", false);
  ("_mm512_cmpeq_epi64_mask", "PPP", false);
  ("_mm512_cmpgt_epi32_mask", "PPP", false);
  ("_mm512_mask_cmpgt_epi32_mask", "PPPP", false);
  ("_mm512_mask_cmpgt_epi64_mask", "PPPP", false);
  ("_mm512_cmpgt_epi64_mask", "PPP", false);
  ("_mm512_cmpge_epi32_mask", "PPP", false);
  ("_mm512_mask_cmpge_epi32_mask", "PPPP", false);
  ("_mm512_mask_cmpge_epu32_mask", "PPPP", false);
  ("_mm512_cmpge_epu32_mask", "PPP", false);
  ("_mm512_mask_cmpge_epi64_mask", "PPPP", false);
  ("_mm512_cmpge_epi64_mask", "PPP", false);
  ("_mm512_mask_cmpge_epu64_mask", "PPPP", false);
  ("_mm512_cmpge_epu64_mask", "PPP", false);
  ("_mm512_mask_cmple_epi32_mask", "PPPP", false);
  ("_mm512_cmple_epi32_mask", "PPP", false);
  ("_mm512_mask_cmple_epu32_mask", "PPPP", false);
  ("_mm512_cmple_epu32_mask", "PPP", false);
  ("_mm512_mask_cmple_epi64_mask", "PPPP", false);
  ("_mm512_cmple_epi64_mask", "PPP", false);
  ("_mm512_mask_cmple_epu64_mask", "PPPP", false);
  ("_mm512_cmple_epu64_mask", "PPP", false);
  ("_mm512_mask_cmplt_epi32_mask", "PPPP", false);
  ("_mm512_cmplt_epi32_mask", "PPP", false);
  ("_mm512_mask_cmplt_epu32_mask", "PPPP", false);
  ("_mm512_cmplt_epu32_mask", "PPP", false);
  ("_mm512_mask_cmplt_epi64_mask", "PPPP", false);
  ("_mm512_cmplt_epi64_mask", "PPP", false);
  ("_mm512_mask_cmplt_epu64_mask", "PPPP", false);
  ("_mm512_cmplt_epu64_mask", "PPP", false);
  ("_mm512_cmpneq_epi32_mask", "PPP", false);
  ("_mm512_mask_cmpneq_epi32_mask", "PPPP", false);
  ("_mm512_mask_cmpneq_epu32_mask", "PPPP", false);
  ("_mm512_cmpneq_epu32_mask", "PPP", false);
  ("_mm512_mask_cmpneq_epi64_mask", "PPPP", false);
  ("_mm512_cmpneq_epi64_mask", "PPP", false);
  ("_mm512_mask_cmpneq_epu64_mask", "PPPP", false);
  ("_mm512_cmpneq_epu64_mask", "PPP", false);
  ("_kshiftli_mask16", "PPi", true);
  ("_kshiftri_mask16", "PPi", true);
  ("_mm512_cmp_epi64_mask", "PPPi", true);
  ("_mm512_cmp_epi32_mask", "PPPi", true);
  ("_mm512_cmp_epu64_mask", "PPPi", true);
  ("_mm512_cmp_epu32_mask", "PPPi", true);
  ("_mm512_cmp_round_pd_mask", "PPPii", true);
  ("_mm512_cmp_round_ps_mask", "PPPii", true);
  ("_mm512_mask_cmp_epi64_mask", "PPPPi", true);
  ("_mm512_mask_cmp_epi32_mask", "PPPPi", true);
  ("_mm512_mask_cmp_epu64_mask", "PPPPi", true);
  ("_mm512_mask_cmp_epu32_mask", "PPPPi", true);
  ("_mm512_mask_cmp_round_pd_mask", "PPPPii", true);
  ("_mm512_mask_cmp_round_ps_mask", "PPPPii", true);
  ("_mm_cmp_round_sd_mask", "PPPii", true);
  ("_mm_mask_cmp_round_sd_mask", "PPPPii", true);
  ("_mm_cmp_round_ss_mask", "PPPii", true);
  ("_mm_mask_cmp_round_ss_mask", "PPPPii", true);
  ("_mm512_i32gather_ps", "PPPi", true);
  ("_mm512_mask_i32gather_ps", "PPPPPi", true);
  ("_mm512_i32gather_pd", "PPPi", true);
  ("_mm512_mask_i32gather_pd", "PPPPPi", true);
  ("_mm512_i64gather_ps", "PPPi", true);
  ("_mm512_mask_i64gather_ps", "PPPPPi", true);
  ("_mm512_i64gather_pd", "PPPi", true);
  ("_mm512_mask_i64gather_pd", "PPPPPi", true);
  ("_mm512_i32gather_epi32", "PPPi", true);
  ("_mm512_mask_i32gather_epi32", "PPPPPi", true);
  ("_mm512_i32gather_epi64", "PPPi", true);
  ("_mm512_mask_i32gather_epi64", "PPPPPi", true);
  ("_mm512_i64gather_epi32", "PPPi", true);
  ("_mm512_mask_i64gather_epi32", "PPPPPi", true);
  ("_mm512_i64gather_epi64", "PPPi", true);
  ("_mm512_mask_i64gather_epi64", "PPPPPi", true);
  ("_mm512_i32scatter_ps", "PPPi", true);
  ("_mm512_mask_i32scatter_ps", "PPPPi", true);
  ("_mm512_i32scatter_pd", "PPPi", true);
  ("_mm512_mask_i32scatter_pd", "PPPPi", true);
  ("_mm512_i64scatter_ps", "PPPi", true);
  ("_mm512_mask_i64scatter_ps", "PPPPi", true);
  ("_mm512_i64scatter_pd", "PPPi", true);
  ("_mm512_mask_i64scatter_pd", "PPPPi", true);
  ("_mm512_i32scatter_epi32", "PPPi", true);
  ("_mm512_mask_i32scatter_epi32", "PPPPi", true);
  ("_mm512_i32scatter_epi64", "PPPi", true);
  ("_mm512_mask_i32scatter_epi64", "PPPPi", true);
  ("_mm512_i64scatter_epi32", "PPPi", true);
  ("_mm512_mask_i64scatter_epi32", "PPPPi", true);
  ("_mm512_i64scatter_epi64", "PPPi", true);
  ("_mm512_mask_i64scatter_epi64", "PPPPi", true);
  ("_mm512_mask_compress_pd", "PPPP", false);
  ("_mm512_maskz_compress_pd", "PPP", false);
  ("_mm512_mask_compressstoreu_pd", "PPP", false);
  ("_mm512_mask_compress_ps", "PPPP", false);
  ("_mm512_maskz_compress_ps", "PPP", false);
  ("_mm512_mask_compressstoreu_ps", "PPP", false);
  ("_mm512_mask_compress_epi64", "PPPP", false);
  ("_mm512_maskz_compress_epi64", "PPP", false);
  ("_mm512_mask_compressstoreu_epi64", "PPP", false);
  ("_mm512_mask_compress_epi32", "PPPP", false);
  ("_mm512_maskz_compress_epi32", "PPP", false);
  ("_mm512_mask_compressstoreu_epi32", "PPP", false);
  ("_mm512_mask_expand_pd", "PPPP", false);
  ("_mm512_maskz_expand_pd", "PPP", false);
  ("_mm512_mask_expandloadu_pd", "PPPP", false);
  ("_mm512_maskz_expandloadu_pd", "PPP", false);
  ("_mm512_mask_expand_ps", "PPPP", false);
  ("_mm512_maskz_expand_ps", "PPP", false);
  ("_mm512_mask_expandloadu_ps", "PPPP", false);
  ("_mm512_maskz_expandloadu_ps", "PPP", false);
  ("_mm512_mask_expand_epi64", "PPPP", false);
  ("_mm512_maskz_expand_epi64", "PPP", false);
  ("_mm512_mask_expandloadu_epi64", "PPPP", false);
  ("_mm512_maskz_expandloadu_epi64", "PPP", false);
  ("_mm512_mask_expand_epi32", "PPPP", false);
  ("_mm512_maskz_expand_epi32", "PPP", false);
  ("_mm512_mask_expandloadu_epi32", "PPPP", false);
  ("_mm512_maskz_expandloadu_epi32", "PPP", false);
  ("_kortest_mask16_u8", "PPPP", false);
  ("_kortestz_mask16_u8", "PPP", false);
  ("_kortestc_mask16_u8", "PPP", false);
  ("_cvtmask16_u32", "PP", false);
  ("_cvtu32_mask16", "Pi", false);
  ("_load_mask16", "PP", false);
  ("_store_mask16", "PP", false);
  ("_mm512_kand", "PPP", false);
  ("_mm512_kandn", "PPP", false);
  ("_mm512_kor", "PPP", false);
  ("_mm512_kortestz", "PPP", false);
  ("_mm512_kortestc", "PPP", false);
  ("_mm512_kxnor", "PPP", false);
  ("_mm512_kxor", "PPP", false);
  ("_mm512_knot", "PP", false);
  ("_mm512_kunpackb", "PPP", false);
  ("_mm512_maskz_inserti32x4", "PPPPi", true);
  ("_mm512_maskz_insertf32x4", "PPPPi", true);
  ("_mm512_mask_inserti32x4", "PPPPPi", true);
  ("_mm512_mask_insertf32x4", "PPPPPi", true);
  ("_mm512_max_epi64", "PPP", false);
  ("_mm512_maskz_max_epi64", "PPPP", false);
  ("_mm512_mask_max_epi64", "PPPPP", false);
  ("_mm512_min_epi64", "PPP", false);
  ("_mm512_mask_min_epi64", "PPPPP", false);
  ("_mm512_maskz_min_epi64", "PPPP", false);
  ("_mm512_max_epu64", "PPP", false);
  ("_mm512_maskz_max_epu64", "PPPP", false);
  ("_mm512_mask_max_epu64", "PPPPP", false);
  ("_mm512_min_epu64", "PPP", false);
  ("_mm512_mask_min_epu64", "PPPPP", false);
  ("_mm512_maskz_min_epu64", "PPPP", false);
  ("_mm512_max_epi32", "PPP", false);
  ("_mm512_maskz_max_epi32", "PPPP", false);
  ("_mm512_mask_max_epi32", "PPPPP", false);
  ("_mm512_min_epi32", "PPP", false);
  ("_mm512_maskz_min_epi32", "PPPP", false);
  ("_mm512_mask_min_epi32", "PPPPP", false);
  ("_mm512_max_epu32", "PPP", false);
  ("_mm512_maskz_max_epu32", "PPPP", false);
  ("_mm512_mask_max_epu32", "PPPPP", false);
  ("_mm512_min_epu32", "PPP", false);
  ("_mm512_maskz_min_epu32", "PPPP", false);
  ("_mm512_mask_min_epu32", "PPPPP", false);
  ("_mm512_unpacklo_ps", "PPP", false);
  ("_mm512_mask_unpacklo_ps", "PPPPP", false);
  ("_mm512_maskz_unpacklo_ps", "PPPP", false);
  ("_mm_max_round_sd", "PPPi", true);
  ("_mm_mask_max_round_sd", "PPPPPi", true);
  ("_mm_maskz_max_round_sd", "PPPPi", true);
  ("_mm_max_round_ss", "PPPi", true);
  ("_mm_mask_max_round_ss", "PPPPPi", true);
  ("_mm_maskz_max_round_ss", "PPPPi", true);
  ("_mm_min_round_sd", "PPPi", true);
  ("_mm_mask_min_round_sd", "PPPPPi", true);
  ("_mm_maskz_min_round_sd", "PPPPi", true);
  ("_mm_min_round_ss", "PPPi", true);
  ("_mm_mask_min_round_ss", "PPPPPi", true);
  ("_mm_maskz_min_round_ss", "PPPPi", true);
  ("_mm512_mask_blend_pd", "PPPP", false);
  ("_mm512_mask_blend_ps", "PPPP", false);
  ("_mm512_mask_blend_epi64", "PPPP", false);
  ("_mm512_mask_blend_epi32", "PPPP", false);
  ("_mm_fmadd_round_sd", "PPPPi", true);
  ("_mm_fmadd_round_ss", "PPPPi", true);
  ("_mm_fmsub_round_sd", "PPPPi", true);
  ("_mm_fmsub_round_ss", "PPPPi", true);
  ("_mm_fnmadd_round_sd", "PPPPi", true);
  ("_mm_fnmadd_round_ss", "PPPPi", true);
  ("_mm_fnmsub_round_sd", "PPPPi", true);
  ("_mm_fnmsub_round_ss", "PPPPi", true);
  ("_mm_mask_fmadd_sd", "PPPPP", false);
  ("_mm_mask_fmadd_ss", "PPPPP", false);
  ("_mm_mask3_fmadd_sd", "PPPPP", false);
  ("_mm_mask3_fmadd_ss", "PPPPP", false);
  ("_mm_maskz_fmadd_sd", "PPPPP", false);
  ("_mm_maskz_fmadd_ss", "PPPPP", false);
  ("_mm_mask_fmsub_sd", "PPPPP", false);
  ("_mm_mask_fmsub_ss", "PPPPP", false);
  ("_mm_mask3_fmsub_sd", "PPPPP", false);
  ("_mm_mask3_fmsub_ss", "PPPPP", false);
  ("_mm_maskz_fmsub_sd", "PPPPP", false);
  ("_mm_maskz_fmsub_ss", "PPPPP", false);
  ("_mm_mask_fnmadd_sd", "PPPPP", false);
  ("_mm_mask_fnmadd_ss", "PPPPP", false);
  ("_mm_mask3_fnmadd_sd", "PPPPP", false);
  ("_mm_mask3_fnmadd_ss", "PPPPP", false);
  ("_mm_maskz_fnmadd_sd", "PPPPP", false);
  ("_mm_maskz_fnmadd_ss", "PPPPP", false);
  ("_mm_mask_fnmsub_sd", "PPPPP", false);
  ("_mm_mask_fnmsub_ss", "PPPPP", false);
  ("_mm_mask3_fnmsub_sd", "PPPPP", false);
  ("_mm_mask3_fnmsub_ss", "PPPPP", false);
  ("_mm_maskz_fnmsub_sd", "PPPPP", false);
  ("_mm_maskz_fnmsub_ss", "PPPPP", false);
  ("_mm_mask_fmadd_round_sd", "PPPPPi", true);
  ("_mm_mask_fmadd_round_ss", "PPPPPi", true);
  ("_mm_mask3_fmadd_round_sd", "PPPPPi", true);
  ("_mm_mask3_fmadd_round_ss", "PPPPPi", true);
  ("_mm_maskz_fmadd_round_sd", "PPPPPi", true);
  ("_mm_maskz_fmadd_round_ss", "PPPPPi", true);
  ("_mm_mask_fmsub_round_sd", "PPPPPi", true);
  ("_mm_mask_fmsub_round_ss", "PPPPPi", true);
  ("_mm_mask3_fmsub_round_sd", "PPPPPi", true);
  ("_mm_mask3_fmsub_round_ss", "PPPPPi", true);
  ("_mm_maskz_fmsub_round_sd", "PPPPPi", true);
  ("_mm_maskz_fmsub_round_ss", "PPPPPi", true);
  ("_mm_mask_fnmadd_round_sd", "PPPPPi", true);
  ("_mm_mask_fnmadd_round_ss", "PPPPPi", true);
  ("_mm_mask3_fnmadd_round_sd", "PPPPPi", true);
  ("_mm_mask3_fnmadd_round_ss", "PPPPPi", true);
  ("_mm_maskz_fnmadd_round_sd", "PPPPPi", true);
  ("_mm_maskz_fnmadd_round_ss", "PPPPPi", true);
  ("_mm_mask_fnmsub_round_sd", "PPPPPi", true);
  ("_mm_mask_fnmsub_round_ss", "PPPPPi", true);
  ("_mm_mask3_fnmsub_round_sd", "PPPPPi", true);
  ("_mm_mask3_fnmsub_round_ss", "PPPPPi", true);
  ("_mm_maskz_fnmsub_round_sd", "PPPPPi", true);
  ("_mm_maskz_fnmsub_round_ss", "PPPPPi", true);
  ("_mm_comi_round_ss", "PPPii", true);
  ("_mm_comi_round_sd", "PPPii", true);
  ("_mm512_sqrt_pd", "PP", false);
  ("_mm512_mask_sqrt_pd", "PPPP", false);
  ("_mm512_maskz_sqrt_pd", "PPP", false);
  ("_mm512_sqrt_ps", "PP", false);
  ("_mm512_mask_sqrt_ps", "PPPP", false);
  ("_mm512_maskz_sqrt_ps", "PPP", false);
  ("_mm512_add_pd", "PPP", false);
  ("_mm512_mask_add_pd", "PPPPP", false);
  ("_mm512_maskz_add_pd", "PPPP", false);
  ("_mm512_add_ps", "PPP", false);
  ("_mm512_mask_add_ps", "PPPPP", false);
  ("_mm512_maskz_add_ps", "PPPP", false);
  ("_mm_mask_add_sd", "PPPPP", false);
  ("_mm_maskz_add_sd", "PPPP", false);
  ("_mm_mask_add_ss", "PPPPP", false);
  ("_mm_maskz_add_ss", "PPPP", false);
  ("_mm512_sub_pd", "PPP", false);
  ("_mm512_mask_sub_pd", "PPPPP", false);
  ("_mm512_maskz_sub_pd", "PPPP", false);
  ("_mm512_sub_ps", "PPP", false);
  ("_mm512_mask_sub_ps", "PPPPP", false);
  ("_mm512_maskz_sub_ps", "PPPP", false);
  ("_mm_mask_sub_sd", "PPPPP", false);
  ("_mm_maskz_sub_sd", "PPPP", false);
  ("_mm_mask_sub_ss", "PPPPP", false);
  ("_mm_maskz_sub_ss", "PPPP", false);
  ("_mm512_mul_pd", "PPP", false);
  ("_mm512_mask_mul_pd", "PPPPP", false);
  ("_mm512_maskz_mul_pd", "PPPP", false);
  ("_mm512_mul_ps", "PPP", false);
  ("_mm512_mask_mul_ps", "PPPPP", false);
  ("_mm512_maskz_mul_ps", "PPPP", false);
  ("_mm_mask_mul_sd", "PPPPP", false);
  ("_mm_maskz_mul_sd", "PPPP", false);
  ("_mm_mask_mul_ss", "PPPPP", false);
  ("_mm_maskz_mul_ss", "PPPP", false);
  ("_mm512_div_pd", "PPP", false);
  ("_mm512_mask_div_pd", "PPPPP", false);
  ("_mm512_maskz_div_pd", "PPPP", false);
  ("_mm512_div_ps", "PPP", false);
  ("_mm512_mask_div_ps", "PPPPP", false);
  ("_mm512_maskz_div_ps", "PPPP", false);
  ("_mm_mask_div_sd", "PPPPP", false);
  ("_mm_maskz_div_sd", "PPPP", false);
  ("_mm_mask_div_ss", "PPPPP", false);
  ("_mm_maskz_div_ss", "PPPP", false);
  ("_mm512_max_pd", "PPP", false);
  ("_mm512_mask_max_pd", "PPPPP", false);
  ("_mm512_maskz_max_pd", "PPPP", false);
  ("_mm512_max_ps", "PPP", false);
  ("_mm512_mask_max_ps", "PPPPP", false);
  ("_mm512_maskz_max_ps", "PPPP", false);
  ("_mm_mask_max_sd", "PPPPP", false);
  ("_mm_maskz_max_sd", "PPPP", false);
  ("_mm_mask_max_ss", "PPPPP", false);
  ("_mm_maskz_max_ss", "PPPP", false);
  ("_mm512_min_pd", "PPP", false);
  ("_mm512_mask_min_pd", "PPPPP", false);
  ("_mm512_maskz_min_pd", "PPPP", false);
  ("_mm512_min_ps", "PPP", false);
  ("_mm512_mask_min_ps", "PPPPP", false);
  ("_mm512_maskz_min_ps", "PPPP", false);
  ("_mm_mask_min_sd", "PPPPP", false);
  ("_mm_maskz_min_sd", "PPPP", false);
  ("_mm_mask_min_ss", "PPPPP", false);
  ("_mm_maskz_min_ss", "PPPP", false);
  ("_mm512_scalef_pd", "PPP", false);
  ("_mm512_mask_scalef_pd", "PPPPP", false);
  ("_mm512_maskz_scalef_pd", "PPPP", false);
  ("_mm512_scalef_ps", "PPP", false);
  ("_mm512_mask_scalef_ps", "PPPPP", false);
  ("_mm512_maskz_scalef_ps", "PPPP", false);
  ("_mm_scalef_sd", "PPP", false);
  ("_mm_scalef_ss", "PPP", false);
  ("_mm512_fmadd_pd", "PPPP", false);
  ("_mm512_mask_fmadd_pd", "PPPPP", false);
  ("_mm512_mask3_fmadd_pd", "PPPPP", false);
  ("_mm512_maskz_fmadd_pd", "PPPPP", false);
  ("_mm512_fmadd_ps", "PPPP", false);
  ("_mm512_mask_fmadd_ps", "PPPPP", false);
  ("_mm512_mask3_fmadd_ps", "PPPPP", false);
  ("_mm512_maskz_fmadd_ps", "PPPPP", false);
  ("_mm512_fmsub_pd", "PPPP", false);
  ("_mm512_mask_fmsub_pd", "PPPPP", false);
  ("_mm512_mask3_fmsub_pd", "PPPPP", false);
  ("_mm512_maskz_fmsub_pd", "PPPPP", false);
  ("_mm512_fmsub_ps", "PPPP", false);
  ("_mm512_mask_fmsub_ps", "PPPPP", false);
  ("_mm512_mask3_fmsub_ps", "PPPPP", false);
  ("_mm512_maskz_fmsub_ps", "PPPPP", false);
  ("_mm512_fmaddsub_pd", "PPPP", false);
  ("_mm512_mask_fmaddsub_pd", "PPPPP", false);
  ("_mm512_mask3_fmaddsub_pd", "PPPPP", false);
  ("_mm512_maskz_fmaddsub_pd", "PPPPP", false);
  ("_mm512_fmaddsub_ps", "PPPP", false);
  ("_mm512_mask_fmaddsub_ps", "PPPPP", false);
  ("_mm512_mask3_fmaddsub_ps", "PPPPP", false);
  ("_mm512_maskz_fmaddsub_ps", "PPPPP", false);
  ("_mm512_fmsubadd_pd", "PPPP", false);
  ("_mm512_mask_fmsubadd_pd", "PPPPP", false);
  ("_mm512_mask3_fmsubadd_pd", "PPPPP", false);
  ("_mm512_maskz_fmsubadd_pd", "PPPPP", false);
  ("_mm512_fmsubadd_ps", "PPPP", false);
  ("_mm512_mask_fmsubadd_ps", "PPPPP", false);
  ("_mm512_mask3_fmsubadd_ps", "PPPPP", false);
  ("_mm512_maskz_fmsubadd_ps", "PPPPP", false);
  ("_mm512_fnmadd_pd", "PPPP", false);
  ("_mm512_mask_fnmadd_pd", "PPPPP", false);
  ("_mm512_mask3_fnmadd_pd", "PPPPP", false);
  ("_mm512_maskz_fnmadd_pd", "PPPPP", false);
  ("_mm512_fnmadd_ps", "PPPP", false);
  ("_mm512_mask_fnmadd_ps", "PPPPP", false);
  ("_mm512_mask3_fnmadd_ps", "PPPPP", false);
  ("_mm512_maskz_fnmadd_ps", "PPPPP", false);
  ("_mm512_fnmsub_pd", "PPPP", false);
  ("_mm512_mask_fnmsub_pd", "PPPPP", false);
  ("_mm512_mask3_fnmsub_pd", "PPPPP", false);
  ("_mm512_maskz_fnmsub_pd", "PPPPP", false);
  ("_mm512_fnmsub_ps", "PPPP", false);
  ("_mm512_mask_fnmsub_ps", "PPPPP", false);
  ("_mm512_mask3_fnmsub_ps", "PPPPP", false);
  ("_mm512_maskz_fnmsub_ps", "PPPPP", false);
  ("_mm512_cvttpd_epi32", "PP", false);
  ("_mm512_mask_cvttpd_epi32", "PPPP", false);
  ("_mm512_maskz_cvttpd_epi32", "PPP", false);
  ("_mm512_cvttpd_epu32", "PP", false);
  ("_mm512_mask_cvttpd_epu32", "PPPP", false);
  ("_mm512_maskz_cvttpd_epu32", "PPP", false);
  ("_mm512_cvtpd_epi32", "PP", false);
  ("_mm512_mask_cvtpd_epi32", "PPPP", false);
  ("_mm512_maskz_cvtpd_epi32", "PPP", false);
  ("_mm512_cvtpd_epu32", "PP", false);
  ("_mm512_mask_cvtpd_epu32", "PPPP", false);
  ("_mm512_maskz_cvtpd_epu32", "PPP", false);
  ("_mm512_cvttps_epi32", "PP", false);
  ("_mm512_mask_cvttps_epi32", "PPPP", false);
  ("_mm512_maskz_cvttps_epi32", "PPP", false);
  ("_mm512_cvttps_epu32", "PP", false);
  ("_mm512_mask_cvttps_epu32", "PPPP", false);
  ("_mm512_maskz_cvttps_epu32", "PPP", false);
  ("_mm512_cvtps_epi32", "PP", false);
  ("_mm512_mask_cvtps_epi32", "PPPP", false);
  ("_mm512_maskz_cvtps_epi32", "PPP", false);
  ("_mm512_cvtps_epu32", "PP", false);
  ("_mm512_mask_cvtps_epu32", "PPPP", false);
  ("_mm512_maskz_cvtps_epu32", "PPP", false);
  ("_mm512_cvtsd_f64", "PP", false);
  ("_mm512_cvtss_f32", "PP", false);
  ("_mm_cvtu64_ss", "PPi", false);
  ("_mm_cvtu64_sd", "PPi", false);
  ("_mm_cvtu32_ss", "PPi", false);
  ("_mm512_cvtepi32_ps", "PP", false);
  ("_mm512_mask_cvtepi32_ps", "PPPP", false);
  ("_mm512_maskz_cvtepi32_ps", "PPP", false);
  ("_mm512_cvtepu32_ps", "PP", false);
  ("_mm512_mask_cvtepu32_ps", "PPPP", false);
  ("_mm512_maskz_cvtepu32_ps", "PPP", false);
  ("_mm512_fixupimm_pd", "PPPPi", true);
  ("_mm512_mask_fixupimm_pd", "PPPPPi", true);
  ("_mm512_maskz_fixupimm_pd", "PPPPPi", true);
  ("_mm512_fixupimm_ps", "PPPPi", true);
  ("_mm512_mask_fixupimm_ps", "PPPPPi", true);
  ("_mm512_maskz_fixupimm_ps", "PPPPPi", true);
  ("_mm_fixupimm_sd", "PPPPi", true);
  ("_mm_mask_fixupimm_sd", "PPPPPi", true);
  ("_mm_maskz_fixupimm_sd", "PPPPPi", true);
  ("_mm_fixupimm_ss", "PPPPi", true);
  ("_mm_mask_fixupimm_ss", "PPPPPi", true);
  ("_mm_maskz_fixupimm_ss", "PPPPPi", true);
  ("_mm_cvtss_u64", "PP", false);
  ("_mm_cvttss_u64", "PP", false);
  ("_mm_cvttss_i64", "PP", false);
  ("_mm512_cvtsi512_si32", "PP", false);
  ("_mm_cvtss_u32", "PP", false);
  ("_mm_cvttss_u32", "PP", false);
  ("_mm_cvttss_i32", "PP", false);
  ("_mm_cvtsd_i32", "PP", false);
  ("_mm_cvtss_i32", "PP", false);
  ("_mm_cvti32_sd", "PPi", true);
  ("_mm_cvti32_ss", "PPi", true);
  ("_mm_cvtsd_u64", "PP", false);
  ("_mm_cvttsd_u64", "PP", false);
  ("_mm_cvttsd_i64", "PP", false);
  ("_mm_cvtsd_i64", "PP", false);
  ("_mm_cvtss_i64", "PP", false);
  ("_mm_cvti64_sd", "PPi", false);
  ("_mm_cvti64_ss", "PPi", false);
  ("_mm_cvtsd_u32", "PP", false);
  ("_mm_cvttsd_u32", "PP", false);
  ("_mm_cvttsd_i32", "PP", false);
  ("_mm512_cvtps_pd", "PP", false);
  ("_mm512_mask_cvtps_pd", "PPPP", false);
  ("_mm512_maskz_cvtps_pd", "PPP", false);
  ("_mm512_cvtph_ps", "PP", false);
  ("_mm512_mask_cvtph_ps", "PPPP", false);
  ("_mm512_maskz_cvtph_ps", "PPP", false);
  ("_mm512_cvtpd_ps", "PP", false);
  ("_mm512_mask_cvtpd_ps", "PPPP", false);
  ("_mm512_maskz_cvtpd_ps", "PPP", false);
  ("_mm512_getexp_ps", "PP", false);
  ("_mm512_mask_getexp_ps", "PPPP", false);
  ("_mm512_maskz_getexp_ps", "PPP", false);
  ("_mm512_getexp_pd", "PP", false);
  ("_mm512_mask_getexp_pd", "PPPP", false);
  ("_mm512_maskz_getexp_pd", "PPP", false);
  ("_mm_getexp_ss", "PPP", false);
  ("_mm_mask_getexp_ss", "PPPPP", false);
  ("_mm_maskz_getexp_ss", "PPPP", false);
  ("_mm_getexp_sd", "PPP", false);
  ("_mm_mask_getexp_sd", "PPPPP", false);
  ("_mm_maskz_getexp_sd", "PPPP", false);
  ("_mm512_getmant_pd", "PPee", true);
  ("_mm512_mask_getmant_pd", "PPPPee", true);
  ("_mm512_maskz_getmant_pd", "PPPee", true);
  ("_mm512_getmant_ps", "PPee", true);
  ("_mm512_mask_getmant_ps", "PPPPee", true);
  ("_mm512_maskz_getmant_ps", "PPPee", true);
  ("_mm_getmant_sd", "PPPee", true);
  ("_mm_mask_getmant_sd", "PPPPPee", true);
  ("_mm_maskz_getmant_sd", "PPPPee", true);
  ("_mm_getmant_ss", "PPPee", true);
  ("_mm_mask_getmant_ss", "PPPPPee", true);
  ("_mm_maskz_getmant_ss", "PPPPee", true);
  ("_mm512_roundscale_ps", "PPi", true);
  ("_mm512_mask_roundscale_ps", "PPPPi", true);
  ("_mm512_maskz_roundscale_ps", "PPPi", true);
  ("_mm512_roundscale_pd", "PPi", true);
  ("_mm512_mask_roundscale_pd", "PPPPi", true);
  ("_mm512_maskz_roundscale_pd", "PPPi", true);
  ("_mm_roundscale_ss", "PPPi", true);
  ("_mm_mask_roundscale_ss", "PPPPPi", true);
  ("_mm_maskz_roundscale_ss", "PPPPi", true);
  ("_mm_roundscale_sd", "PPPi", true);
  ("_mm_mask_roundscale_sd", "PPPPPi", true);
  ("_mm_maskz_roundscale_sd", "PPPPi", true);
  ("_mm512_cmp_pd_mask", "PPPi", true);
  ("_mm512_cmp_ps_mask", "PPPi", true);
  ("_mm512_mask_cmp_ps_mask", "PPPPi", true);
  ("_mm512_mask_cmp_pd_mask", "PPPPi", true);
  ("_mm_cmp_sd_mask", "PPPi", true);
  ("_mm_mask_cmp_sd_mask", "PPPPi", true);
  ("_mm_cmp_ss_mask", "PPPi", true);
  ("_mm_mask_cmp_ss_mask", "PPPPi", true);
  ("_mm512_cmpeq_pd_mask", "PPP", false);
  ("_mm512_mask_cmpeq_pd_mask", "PPPP", false);
  ("_mm512_cmplt_pd_mask", "PPP", false);
  ("_mm512_mask_cmplt_pd_mask", "PPPP", false);
  ("_mm512_cmple_pd_mask", "PPP", false);
  ("_mm512_mask_cmple_pd_mask", "PPPP", false);
  ("_mm512_cmpunord_pd_mask", "PPP", false);
  ("_mm512_mask_cmpunord_pd_mask", "PPPP", false);
  ("_mm512_cmpneq_pd_mask", "PPP", false);
  ("_mm512_mask_cmpneq_pd_mask", "PPPP", false);
  ("_mm512_cmpnlt_pd_mask", "PPP", false);
  ("_mm512_mask_cmpnlt_pd_mask", "PPPP", false);
  ("_mm512_cmpnle_pd_mask", "PPP", false);
  ("_mm512_mask_cmpnle_pd_mask", "PPPP", false);
  ("_mm512_cmpord_pd_mask", "PPP", false);
  ("_mm512_mask_cmpord_pd_mask", "PPPP", false);
  ("_mm512_cmpeq_ps_mask", "PPP", false);
  ("_mm512_mask_cmpeq_ps_mask", "PPPP", false);
  ("_mm512_cmplt_ps_mask", "PPP", false);
  ("_mm512_mask_cmplt_ps_mask", "PPPP", false);
  ("_mm512_cmple_ps_mask", "PPP", false);
  ("_mm512_mask_cmple_ps_mask", "PPPP", false);
  ("_mm512_cmpunord_ps_mask", "PPP", false);
  ("_mm512_mask_cmpunord_ps_mask", "PPPP", false);
  ("_mm512_cmpneq_ps_mask", "PPP", false);
  ("_mm512_mask_cmpneq_ps_mask", "PPPP", false);
  ("_mm512_cmpnlt_ps_mask", "PPP", false);
  ("_mm512_mask_cmpnlt_ps_mask", "PPPP", false);
  ("_mm512_cmpnle_ps_mask", "PPP", false);
  ("_mm512_mask_cmpnle_ps_mask", "PPPP", false);
  ("_mm512_cmpord_ps_mask", "PPP", false);
  ("_mm512_mask_cmpord_ps_mask", "PPPP", false);
  ("_mm512_kmov", "PP", false);
  ("_mm512_castpd_ps", "PP", false);
  ("_mm512_castpd_si512", "PP", false);
  ("_mm512_castps_pd", "PP", false);
  ("_mm512_castps_si512", "PP", false);
  ("_mm512_castsi512_ps", "PP", false);
  ("_mm512_castsi512_pd", "PP", false);
  ("_mm512_castpd512_pd128", "PP", false);
  ("_mm512_castps512_ps128", "PP", false);
  ("_mm512_castsi512_si128", "PP", false);
  ("_mm512_castpd512_pd256", "PP", false);
  ("_mm512_castps512_ps256", "PP", false);
  ("_mm512_castsi512_si256", "PP", false);
  ("_mm512_castpd128_pd512", "PP", false);
  ("_mm512_castps128_ps512", "PP", false);
  ("_mm512_castsi128_si512", "PP", false);
  ("_mm512_castpd256_pd512", "PP", false);
  ("_mm512_castps256_ps512", "PP", false);
  ("_mm512_castsi256_si512", "PP", false);
  ("_mm512_zextpd128_pd512", "PP", false);
  ("_mm512_zextps128_ps512", "PP", false);
  ("_mm512_zextsi128_si512", "PP", false);
  ("_mm512_zextpd256_pd512", "PP", false);
  ("_mm512_zextps256_ps512", "PP", false);
  ("_mm512_zextsi256_si512", "PP", false);
  ("_mm512_cmpeq_epu32_mask", "PPP", false);
  ("_mm512_mask_cmpeq_epu32_mask", "PPPP", false);
  ("_mm512_mask_cmpeq_epu64_mask", "PPPP", false);
  ("_mm512_cmpeq_epu64_mask", "PPP", false);
  ("_mm512_cmpgt_epu32_mask", "PPP", false);
  ("_mm512_mask_cmpgt_epu32_mask", "PPPP", false);
  ("_mm512_mask_cmpgt_epu64_mask", "PPPP", false);
  ("_mm512_cmpgt_epu64_mask", "PPP", false);
  ("_mm512_reduce_add_epi32", "PP", false);
  ("_mm512_reduce_mul_epi32", "PP", false);
  ("_mm512_reduce_and_epi32", "PP", false);
  ("_mm512_reduce_or_epi32", "PP", false);
  ("_mm512_mask_reduce_add_epi32", "PPP", false);
  ("_mm512_mask_reduce_mul_epi32", "PPP", false);
  ("_mm512_mask_reduce_and_epi32", "PPP", false);
  ("_mm512_mask_reduce_or_epi32", "PPP", false);
  ("_mm512_reduce_min_epi32", "PP", false);
  ("_mm512_reduce_max_epi32", "PP", false);
  ("_mm512_reduce_min_epu32", "PP", false);
  ("_mm512_reduce_max_epu32", "PP", false);
  ("_mm512_mask_reduce_min_epi32", "PPP", false);
  ("_mm512_mask_reduce_max_epi32", "PPP", false);
  ("_mm512_mask_reduce_min_epu32", "PPP", false);
  ("_mm512_mask_reduce_max_epu32", "PPP", false);
  ("_mm512_reduce_add_ps", "PP", false);
  ("_mm512_reduce_mul_ps", "PP", false);
  ("_mm512_mask_reduce_add_ps", "PPP", false);
  ("_mm512_mask_reduce_mul_ps", "PPP", false);
  ("_mm512_reduce_min_ps", "PP", false);
  ("_mm512_reduce_max_ps", "PP", false);
  ("_mm512_mask_reduce_min_ps", "PPP", false);
  ("_mm512_mask_reduce_max_ps", "PPP", false);
  ("_mm512_reduce_add_epi64", "PP", false);
  ("_mm512_reduce_mul_epi64", "PP", false);
  ("_mm512_reduce_and_epi64", "PP", false);
  ("_mm512_reduce_or_epi64", "PP", false);
  ("_mm512_mask_reduce_add_epi64", "PPP", false);
  ("_mm512_mask_reduce_mul_epi64", "PPP", false);
  ("_mm512_mask_reduce_and_epi64", "PPP", false);
  ("_mm512_mask_reduce_or_epi64", "PPP", false);
  ("_mm512_reduce_min_epi64", "PP", false);
  ("_mm512_reduce_max_epi64", "PP", false);
  ("_mm512_mask_reduce_min_epi64", "PPP", false);
  ("_mm512_mask_reduce_max_epi64", "PPP", false);
  ("_mm512_reduce_min_epu64", "PP", false);
  ("_mm512_reduce_max_epu64", "PP", false);
  ("_mm512_mask_reduce_min_epu64", "PPP", false);
  ("_mm512_mask_reduce_max_epu64", "PPP", false);
  ("_mm512_reduce_add_pd", "PP", false);
  ("_mm512_reduce_mul_pd", "PP", false);
  ("_mm512_mask_reduce_add_pd", "PPP", false);
  ("_mm512_mask_reduce_mul_pd", "PPP", false);
  ("_mm512_reduce_min_pd", "PP", false);
  ("_mm512_reduce_max_pd", "PP", false);
  ("_mm512_mask_reduce_min_pd", "PPP", false)
].

(** The bindings of unsafe/SIMDLowAVX512.cpp in order, one row each: name of the
    intrinsic, line of SIMDLowAVX512_<name>_impl, operand kinds, width of the
    result in bytes. Every row is registered in SIMDLowAVX512_methods,
    34252-35639, under the name without the leading underscore. *)
From Coq Require Import List String.
From Coq Require Import ZArith.
From Verif Require Import Avx512Model.
Import ListNotations.
Local Open Scope string_scope.

Definition avx512_table : list binding := [
  toreg "_mm512_int2mask" 11 [KInt] 2;
  toreg "_mm512_mask2int" 29 [M16] 4;
  toreg "_mm512_set_epi64" 47 [KLong; KLong; KLong; KLong; KLong; KLong; KLong; KLong] 64;
  toreg "_mm512_set_epi32" 72 [KInt; KInt; KInt; KInt; KInt; KInt; KInt; KInt; KInt; KInt; KInt; KInt; KInt; KInt; KInt; KInt] 64;
  toreg "_mm512_set_epi16" 105 [KShort; KShort; KShort; KShort; KShort; KShort; KShort; KShort; KShort; KShort; KShort; KShort; KShort; KShort; KShort; KShort; KShort; KShort; KShort; KShort; KShort; KShort; KShort; KShort; KShort; KShort; KShort; KShort; KShort; KShort; KShort; KShort] 64;
  toreg "_mm512_set_epi8" 154 [KChar; KChar; KChar; KChar; KChar; KChar; KChar; KChar; KChar; KChar; KChar; KChar; KChar; KChar; KChar; KChar; KChar; KChar; KChar; KChar; KChar; KChar; KChar; KChar; KChar; KChar; KChar; KChar; KChar; KChar; KChar; KChar; KChar; KChar; KChar; KChar; KChar; KChar; KChar; KChar; KChar; KChar; KChar; KChar; KChar; KChar; KChar; KChar; KChar; KChar; KChar; KChar; KChar; KChar; KChar; KChar; KChar; KChar; KChar; KChar; KChar; KChar; KChar; KChar] 64;
  toreg "_mm512_set_pd" 235 [KDouble; KDouble; KDouble; KDouble; KDouble; KDouble; KDouble; KDouble] 64;
  toreg "_mm512_set_ps" 260 [KFloat; KFloat; KFloat; KFloat; KFloat; KFloat; KFloat; KFloat; KFloat; KFloat; KFloat; KFloat; KFloat; KFloat; KFloat; KFloat] 64;
  toreg "_mm512_undefined_ps" 293 [] 64;
  toreg "_mm512_undefined_pd" 310 [] 64;
  toreg "_mm512_undefined_epi32" 327 [] 64;
  toreg "_mm512_set1_epi8" 344 [KChar] 64;
  toreg "_mm512_set1_epi16" 362 [KShort] 64;
  toreg "_mm512_set1_pd" 380 [KDouble] 64;
  toreg "_mm512_set1_ps" 398 [KFloat] 64;
  unimpl "_mm512_set4_epi32" 416;
  toreg "_mm512_set4_epi64" 426 [KLong; KLong; KLong; KLong] 64;
  toreg "_mm512_set4_pd" 447 [KDouble; KDouble; KDouble; KDouble] 64;
  toreg "_mm512_set4_ps" 468 [KFloat; KFloat; KFloat; KFloat] 64;
  toreg "_mm512_setzero_ps" 489 [] 64;
  toreg "_mm512_setzero" 506 [] 64;
  toreg "_mm512_setzero_pd" 523 [] 64;
  toreg "_mm512_setzero_epi32" 540 [] 64;
  toreg "_mm512_setzero_si512" 557 [] 64;
  toreg "_mm512_mask_mov_pd" 574 [R64; M8; R64] 64;
  toreg "_mm512_maskz_mov_pd" 594 [M8; R64] 64;
  toreg "_mm512_mask_mov_ps" 613 [R64; M16; R64] 64;
  toreg "_mm512_maskz_mov_ps" 633 [M16; R64] 64;
  toreg "_mm512_load_pd" 652 [KPtr] 64;
  toreg "_mm512_mask_load_pd" 670 [R64; M8; KPtr] 64;
  toreg "_mm512_maskz_load_pd" 690 [M8; KPtr] 64;
  tomem "_mm512_store_pd" 709 [KPtr; R64];
  tomem "_mm512_mask_store_pd" 728 [KPtr; M8; R64];
  toreg "_mm512_load_ps" 748 [KPtr] 64;
  toreg "_mm512_mask_load_ps" 766 [R64; M16; KPtr] 64;
  toreg "_mm512_maskz_load_ps" 786 [M16; KPtr] 64;
  tomem "_mm512_store_ps" 805 [KPtr; R64];
  tomem "_mm512_mask_store_ps" 824 [KPtr; M16; R64];
  toreg "_mm512_mask_mov_epi64" 844 [R64; M8; R64] 64;
  toreg "_mm512_maskz_mov_epi64" 864 [M8; R64] 64;
  toreg "_mm512_load_epi64" 883 [KPtr] 64;
  toreg "_mm512_mask_load_epi64" 901 [R64; M8; KPtr] 64;
  toreg "_mm512_maskz_load_epi64" 921 [M8; KPtr] 64;
  tomem "_mm512_store_epi64" 940 [KPtr; R64];
  tomem "_mm512_mask_store_epi64" 959 [KPtr; M8; R64];
  toreg "_mm512_mask_mov_epi32" 979 [R64; M16; R64] 64;
  toreg "_mm512_maskz_mov_epi32" 999 [M16; R64] 64;
  toreg "_mm512_load_si512" 1018 [KPtr] 64;
  toreg "_mm512_load_epi32" 1036 [KPtr] 64;
  toreg "_mm512_mask_load_epi32" 1054 [R64; M16; KPtr] 64;
  toreg "_mm512_maskz_load_epi32" 1074 [M16; KPtr] 64;
  tomem "_mm512_store_si512" 1093 [KPtr; R64];
  tomem "_mm512_store_epi32" 1112 [KPtr; R64];
  tomem "_mm512_mask_store_epi32" 1131 [KPtr; M16; R64];
  toreg "_mm512_mullo_epi32" 1151 [R64; R64] 64;
  toreg "_mm512_maskz_mullo_epi32" 1170 [M16; R64; R64] 64;
  toreg "_mm512_mask_mullo_epi32" 1190 [R64; M16; R64; R64] 64;
  toreg "_mm512_mullox_epi64" 1211 [R64; R64] 64;
  toreg "_mm512_mask_mullox_epi64" 1230 [R64; M8; R64; R64] 64;
  toreg "_mm512_sllv_epi32" 1251 [R64; R64] 64;
  toreg "_mm512_mask_sllv_epi32" 1270 [R64; M16; R64; R64] 64;
  toreg "_mm512_maskz_sllv_epi32" 1291 [M16; R64; R64] 64;
  toreg "_mm512_srav_epi32" 1311 [R64; R64] 64;
  toreg "_mm512_mask_srav_epi32" 1330 [R64; M16; R64; R64] 64;
  toreg "_mm512_maskz_srav_epi32" 1351 [M16; R64; R64] 64;
  toreg "_mm512_srlv_epi32" 1371 [R64; R64] 64;
  toreg "_mm512_mask_srlv_epi32" 1390 [R64; M16; R64; R64] 64;
  toreg "_mm512_maskz_srlv_epi32" 1411 [M16; R64; R64] 64;
  toreg "_mm512_add_epi64" 1431 [R64; R64] 64;
  toreg "_mm512_mask_add_epi64" 1450 [R64; M8; R64; R64] 64;
  toreg "_mm512_maskz_add_epi64" 1471 [M8; R64; R64] 64;
  toreg "_mm512_sub_epi64" 1491 [R64; R64] 64;
  toreg "_mm512_mask_sub_epi64" 1510 [R64; M8; R64; R64] 64;
  toreg "_mm512_maskz_sub_epi64" 1531 [M8; R64; R64] 64;
  toreg "_mm512_sllv_epi64" 1551 [R64; R64] 64;
  toreg "_mm512_mask_sllv_epi64" 1570 [R64; M8; R64; R64] 64;
  toreg "_mm512_maskz_sllv_epi64" 1591 [M8; R64; R64] 64;
  toreg "_mm512_srav_epi64" 1611 [R64; R64] 64;
  toreg "_mm512_mask_srav_epi64" 1630 [R64; M8; R64; R64] 64;
  toreg "_mm512_maskz_srav_epi64" 1651 [M8; R64; R64] 64;
  toreg "_mm512_srlv_epi64" 1671 [R64; R64] 64;
  toreg "_mm512_mask_srlv_epi64" 1690 [R64; M8; R64; R64] 64;
  toreg "_mm512_maskz_srlv_epi64" 1711 [M8; R64; R64] 64;
  toreg "_mm512_add_epi32" 1731 [R64; R64] 64;
  toreg "_mm512_mask_add_epi32" 1750 [R64; M16; R64; R64] 64;
  toreg "_mm512_maskz_add_epi32" 1771 [M16; R64; R64] 64;
  toreg "_mm512_mul_epi32" 1791 [R64; R64] 64;
  toreg "_mm512_mask_mul_epi32" 1810 [R64; M8; R64; R64] 64;
  toreg "_mm512_maskz_mul_epi32" 1831 [M8; R64; R64] 64;
  toreg "_mm512_sub_epi32" 1851 [R64; R64] 64;
  toreg "_mm512_mask_sub_epi32" 1870 [R64; M16; R64; R64] 64;
  toreg "_mm512_maskz_sub_epi32" 1891 [M16; R64; R64] 64;
  toreg "_mm512_mul_epu32" 1911 [R64; R64] 64;
  toreg "_mm512_mask_mul_epu32" 1930 [R64; M8; R64; R64] 64;
  toreg "_mm512_maskz_mul_epu32" 1951 [M8; R64; R64] 64;
  toreg "_mm512_slli_epi64" 1971 [R64; KUint] 64;
  toreg "_mm512_mask_slli_epi64" 1990 [R64; M8; R64; KUint] 64;
  toreg "_mm512_maskz_slli_epi64" 2011 [M8; R64; KUint] 64;
  toreg "_mm512_sll_epi64" 2031 [R64; R16] 64;
  toreg "_mm512_mask_sll_epi64" 2050 [R64; M8; R64; R16] 64;
  toreg "_mm512_maskz_sll_epi64" 2071 [M8; R64; R16] 64;
  toreg "_mm512_srli_epi64" 2091 [R64; KUint] 64;
  toreg "_mm512_mask_srli_epi64" 2110 [R64; M8; R64; KUint] 64;
  toreg "_mm512_maskz_srli_epi64" 2131 [M8; R64; KUint] 64;
  toreg "_mm512_srl_epi64" 2151 [R64; R16] 64;
  toreg "_mm512_mask_srl_epi64" 2170 [R64; M8; R64; R16] 64;
  toreg "_mm512_maskz_srl_epi64" 2191 [M8; R64; R16] 64;
  toreg "_mm512_srai_epi64" 2211 [R64; KUint] 64;
  toreg "_mm512_mask_srai_epi64" 2230 [R64; M8; R64; KUint] 64;
  toreg "_mm512_maskz_srai_epi64" 2251 [M8; R64; KUint] 64;
  toreg "_mm512_sra_epi64" 2271 [R64; R16] 64;
  toreg "_mm512_mask_sra_epi64" 2290 [R64; M8; R64; R16] 64;
  toreg "_mm512_maskz_sra_epi64" 2311 [M8; R64; R16] 64;
  toreg "_mm512_slli_epi32" 2331 [R64; KUint] 64;
  toreg "_mm512_mask_slli_epi32" 2350 [R64; M16; R64; KUint] 64;
  toreg "_mm512_maskz_slli_epi32" 2371 [M16; R64; KUint] 64;
  toreg "_mm512_sll_epi32" 2391 [R64; R16] 64;
  toreg "_mm512_mask_sll_epi32" 2410 [R64; M16; R64; R16] 64;
  toreg "_mm512_maskz_sll_epi32" 2431 [M16; R64; R16] 64;
  toreg "_mm512_srli_epi32" 2451 [R64; KUint] 64;
  toreg "_mm512_mask_srli_epi32" 2470 [R64; M16; R64; KUint] 64;
  toreg "_mm512_maskz_srli_epi32" 2491 [M16; R64; KUint] 64;
  toreg "_mm512_srl_epi32" 2511 [R64; R16] 64;
  toreg "_mm512_mask_srl_epi32" 2530 [R64; M16; R64; R16] 64;
  toreg "_mm512_maskz_srl_epi32" 2551 [M16; R64; R16] 64;
  toreg "_mm512_srai_epi32" 2571 [R64; KUint] 64;
  toreg "_mm512_mask_srai_epi32" 2590 [R64; M16; R64; KUint] 64;
  toreg "_mm512_maskz_srai_epi32" 2611 [M16; R64; KUint] 64;
  toreg "_mm512_sra_epi32" 2631 [R64; R16] 64;
  toreg "_mm512_mask_sra_epi32" 2650 [R64; M16; R64; R16] 64;
  toreg "_mm512_maskz_sra_epi32" 2671 [M16; R64; R16] 64;
  unimpl "_mm_add_round_sd" 2691;
  unimpl "_mm_mask_add_round_sd" 2701;
  unimpl "_mm_maskz_add_round_sd" 2711;
  unimpl "_mm_add_round_ss" 2721;
  unimpl "_mm_mask_add_round_ss" 2731;
  unimpl "_mm_maskz_add_round_ss" 2741;
  unimpl "_mm_sub_round_sd" 2751;
  unimpl "_mm_mask_sub_round_sd" 2761;
  unimpl "_mm_maskz_sub_round_sd" 2771;
  unimpl "_mm_sub_round_ss" 2781;
  unimpl "_mm_mask_sub_round_ss" 2791;
  unimpl "_mm_maskz_sub_round_ss" 2801;
  unimpl "_mm512_ternarylogic_epi64" 2811;
  unimpl "_mm512_mask_ternarylogic_epi64" 2821;
  unimpl "_mm512_maskz_ternarylogic_epi64" 2831;
  unimpl "_mm512_ternarylogic_epi32" 2841;
  unimpl "_mm512_mask_ternarylogic_epi32" 2851;
  unimpl "_mm512_maskz_ternarylogic_epi32" 2861;
  toreg "_mm512_rcp14_pd" 2871 [R64] 64;
  toreg "_mm512_mask_rcp14_pd" 2889 [R64; M8; R64] 64;
  toreg "_mm512_maskz_rcp14_pd" 2909 [M8; R64] 64;
  toreg "_mm512_rcp14_ps" 2928 [R64] 64;
  toreg "_mm512_mask_rcp14_ps" 2946 [R64; M16; R64] 64;
  toreg "_mm512_maskz_rcp14_ps" 2966 [M16; R64] 64;
  toreg "_mm_rcp14_sd" 2985 [R16; R16] 16;
  toreg "_mm_mask_rcp14_sd" 3004 [R16; M8; R16; R16] 16;
  toreg "_mm_maskz_rcp14_sd" 3025 [M8; R16; R16] 16;
  toreg "_mm_rcp14_ss" 3045 [R16; R16] 16;
  toreg "_mm_mask_rcp14_ss" 3064 [R16; M8; R16; R16] 16;
  toreg "_mm_maskz_rcp14_ss" 3085 [M8; R16; R16] 16;
  toreg "_mm512_rsqrt14_pd" 3105 [R64] 64;
  toreg "_mm512_mask_rsqrt14_pd" 3123 [R64; M8; R64] 64;
  toreg "_mm512_maskz_rsqrt14_pd" 3143 [M8; R64] 64;
  toreg "_mm512_rsqrt14_ps" 3162 [R64] 64;
  toreg "_mm512_mask_rsqrt14_ps" 3180 [R64; M16; R64] 64;
  toreg "_mm512_maskz_rsqrt14_ps" 3200 [M16; R64] 64;
  toreg "_mm_rsqrt14_sd" 3219 [R16; R16] 16;
  toreg "_mm_mask_rsqrt14_sd" 3238 [R16; M8; R16; R16] 16;
  toreg "_mm_maskz_rsqrt14_sd" 3259 [M8; R16; R16] 16;
  toreg "_mm_rsqrt14_ss" 3279 [R16; R16] 16;
  toreg "_mm_mask_rsqrt14_ss" 3298 [R16; M8; R16; R16] 16;
  toreg "_mm_maskz_rsqrt14_ss" 3319 [M8; R16; R16] 16;
  unimpl "_mm512_sqrt_round_pd" 3339;
  unimpl "_mm512_mask_sqrt_round_pd" 3349;
  unimpl "_mm512_maskz_sqrt_round_pd" 3359;
  unimpl "_mm512_sqrt_round_ps" 3369;
  unimpl "_mm512_mask_sqrt_round_ps" 3379;
  unimpl "_mm512_maskz_sqrt_round_ps" 3389;
  unimpl "_mm_sqrt_round_sd" 3399;
  unimpl "_mm_mask_sqrt_round_sd" 3409;
  unimpl "_mm_maskz_sqrt_round_sd" 3419;
  unimpl "_mm_sqrt_round_ss" 3429;
  unimpl "_mm_mask_sqrt_round_ss" 3439;
  unimpl "_mm_maskz_sqrt_round_ss" 3449;
  toreg "_mm512_cvtepi8_epi32" 3459 [R16] 64;
  toreg "_mm512_mask_cvtepi8_epi32" 3477 [R64; M16; R16] 64;
  toreg "_mm512_maskz_cvtepi8_epi32" 3497 [M16; R16] 64;
  toreg "_mm512_cvtepi8_epi64" 3516 [R16] 64;
  toreg "_mm512_mask_cvtepi8_epi64" 3534 [R64; M8; R16] 64;
  toreg "_mm512_maskz_cvtepi8_epi64" 3554 [M8; R16] 64;
  toreg "_mm512_cvtepi16_epi32" 3573 [R32] 64;
  toreg "_mm512_mask_cvtepi16_epi32" 3591 [R64; M16; R32] 64;
  toreg "_mm512_maskz_cvtepi16_epi32" 3611 [M16; R32] 64;
  toreg "_mm512_cvtepi16_epi64" 3630 [R16] 64;
  toreg "_mm512_mask_cvtepi16_epi64" 3648 [R64; M8; R16] 64;
  toreg "_mm512_maskz_cvtepi16_epi64" 3668 [M8; R16] 64;
  toreg "_mm512_cvtepi32_epi64" 3687 [R32] 64;
  toreg "_mm512_mask_cvtepi32_epi64" 3705 [R64; M8; R32] 64;
  toreg "_mm512_maskz_cvtepi32_epi64" 3725 [M8; R32] 64;
  toreg "_mm512_cvtepu8_epi32" 3744 [R16] 64;
  toreg "_mm512_mask_cvtepu8_epi32" 3762 [R64; M16; R16] 64;
  toreg "_mm512_maskz_cvtepu8_epi32" 3782 [M16; R16] 64;
  toreg "_mm512_cvtepu8_epi64" 3801 [R16] 64;
  toreg "_mm512_mask_cvtepu8_epi64" 3819 [R64; M8; R16] 64;
  toreg "_mm512_maskz_cvtepu8_epi64" 3839 [M8; R16] 64;
  toreg "_mm512_cvtepu16_epi32" 3858 [R32] 64;
  toreg "_mm512_mask_cvtepu16_epi32" 3876 [R64; M16; R32] 64;
  toreg "_mm512_maskz_cvtepu16_epi32" 3896 [M16; R32] 64;
  toreg "_mm512_cvtepu16_epi64" 3915 [R16] 64;
  toreg "_mm512_mask_cvtepu16_epi64" 3933 [R64; M8; R16] 64;
  toreg "_mm512_maskz_cvtepu16_epi64" 3953 [M8; R16] 64;
  toreg "_mm512_cvtepu32_epi64" 3972 [R32] 64;
  toreg "_mm512_mask_cvtepu32_epi64" 3990 [R64; M8; R32] 64;
  toreg "_mm512_maskz_cvtepu32_epi64" 4010 [M8; R32] 64;
  gated "_mm512_add_round_pd" 4029 4;
  unimpl "_mm512_mask_add_round_pd" 4074;
  unimpl "_mm512_maskz_add_round_pd" 4084;
  unimpl "_mm512_add_round_ps" 4094;
  unimpl "_mm512_mask_add_round_ps" 4104;
  unimpl "_mm512_maskz_add_round_ps" 4114;
  unimpl "_mm512_sub_round_pd" 4124;
  unimpl "_mm512_mask_sub_round_pd" 4134;
  unimpl "_mm512_maskz_sub_round_pd" 4144;
  gated "_mm512_sub_round_ps" 4154 4;
  unimpl "_mm512_mask_sub_round_ps" 4199;
  unimpl "_mm512_maskz_sub_round_ps" 4209;
  unimpl "_mm512_mul_round_pd" 4219;
  unimpl "_mm512_mask_mul_round_pd" 4229;
  unimpl "_mm512_maskz_mul_round_pd" 4239;
  gated "_mm512_mul_round_ps" 4249 4;
  unimpl "_mm512_mask_mul_round_ps" 4294;
  unimpl "_mm512_maskz_mul_round_ps" 4304;
  gated "_mm512_div_round_pd" 4314 4;
  unimpl "_mm512_mask_div_round_pd" 4359;
  unimpl "_mm512_maskz_div_round_pd" 4369;
  unimpl "_mm512_div_round_ps" 4379;
  unimpl "_mm512_mask_div_round_ps" 4389;
  unimpl "_mm512_maskz_div_round_ps" 4399;
  unimpl "_mm_mul_round_sd" 4409;
  unimpl "_mm_mask_mul_round_sd" 4419;
  unimpl "_mm_maskz_mul_round_sd" 4429;
  unimpl "_mm_mul_round_ss" 4439;
  unimpl "_mm_mask_mul_round_ss" 4449;
  unimpl "_mm_maskz_mul_round_ss" 4459;
  unimpl "_mm_div_round_sd" 4469;
  unimpl "_mm_mask_div_round_sd" 4479;
  unimpl "_mm_maskz_div_round_sd" 4489;
  unimpl "_mm_div_round_ss" 4499;
  unimpl "_mm_mask_div_round_ss" 4509;
  unimpl "_mm_maskz_div_round_ss" 4519;
  unimpl "_mm512_max_round_pd" 4529;
  unimpl "_mm512_mask_max_round_pd" 4539;
  unimpl "_mm512_maskz_max_round_pd" 4549;
  unimpl "_mm512_max_round_ps" 4559;
  unimpl "_mm512_mask_max_round_ps" 4569;
  unimpl "_mm512_maskz_max_round_ps" 4579;
  unimpl "_mm512_min_round_pd" 4589;
  unimpl "_mm512_mask_min_round_pd" 4599;
  unimpl "_mm512_maskz_min_round_pd" 4609;
  unimpl "_mm512_min_round_ps" 4619;
  unimpl "_mm512_mask_min_round_ps" 4629;
  unimpl "_mm512_maskz_min_round_ps" 4639;
  unimpl "_mm512_scalef_round_pd" 4649;
  unimpl "_mm512_mask_scalef_round_pd" 4659;
  unimpl "_mm512_maskz_scalef_round_pd" 4669;
  unimpl "_mm512_scalef_round_ps" 4679;
  unimpl "_mm512_mask_scalef_round_ps" 4689;
  unimpl "_mm512_maskz_scalef_round_ps" 4699;
  unimpl "_mm_scalef_round_sd" 4709;
  unimpl "_mm_mask_scalef_round_sd" 4719;
  unimpl "_mm_maskz_scalef_round_sd" 4729;
  unimpl "_mm_scalef_round_ss" 4739;
  unimpl "_mm_mask_scalef_round_ss" 4749;
  unimpl "_mm_maskz_scalef_round_ss" 4759;
  unimpl "_mm512_fmadd_round_pd" 4769;
  unimpl "_mm512_mask_fmadd_round_pd" 4779;
  unimpl "_mm512_mask3_fmadd_round_pd" 4789;
  unimpl "_mm512_maskz_fmadd_round_pd" 4799;
  unimpl "_mm512_fmadd_round_ps" 4809;
  unimpl "_mm512_mask_fmadd_round_ps" 4819;
  unimpl "_mm512_mask3_fmadd_round_ps" 4829;
  unimpl "_mm512_maskz_fmadd_round_ps" 4839;
  unimpl "_mm512_fmsub_round_pd" 4849;
  unimpl "_mm512_mask_fmsub_round_pd" 4859;
  unimpl "_mm512_mask3_fmsub_round_pd" 4869;
  unimpl "_mm512_maskz_fmsub_round_pd" 4879;
  unimpl "_mm512_fmsub_round_ps" 4889;
  unimpl "_mm512_mask_fmsub_round_ps" 4899;
  unimpl "_mm512_mask3_fmsub_round_ps" 4909;
  unimpl "_mm512_maskz_fmsub_round_ps" 4919;
  unimpl "_mm512_fmaddsub_round_pd" 4929;
  unimpl "_mm512_mask_fmaddsub_round_pd" 4939;
  unimpl "_mm512_mask3_fmaddsub_round_pd" 4949;
  unimpl "_mm512_maskz_fmaddsub_round_pd" 4959;
  unimpl "_mm512_fmaddsub_round_ps" 4969;
  unimpl "_mm512_mask_fmaddsub_round_ps" 4979;
  unimpl "_mm512_mask3_fmaddsub_round_ps" 4989;
  unimpl "_mm512_maskz_fmaddsub_round_ps" 4999;
  unimpl "_mm512_fmsubadd_round_pd" 5009;
  unimpl "_mm512_mask_fmsubadd_round_pd" 5019;
  unimpl "_mm512_mask3_fmsubadd_round_pd" 5029;
  unimpl "_mm512_maskz_fmsubadd_round_pd" 5039;
  unimpl "_mm512_fmsubadd_round_ps" 5049;
  unimpl "_mm512_mask_fmsubadd_round_ps" 5059;
  unimpl "_mm512_mask3_fmsubadd_round_ps" 5069;
  unimpl "_mm512_maskz_fmsubadd_round_ps" 5079;
  unimpl "_mm512_fnmadd_round_pd" 5089;
  unimpl "_mm512_mask_fnmadd_round_pd" 5099;
  unimpl "_mm512_mask3_fnmadd_round_pd" 5109;
  unimpl "_mm512_maskz_fnmadd_round_pd" 5119;
  unimpl "_mm512_fnmadd_round_ps" 5129;
  unimpl "_mm512_mask_fnmadd_round_ps" 5139;
  unimpl "_mm512_mask3_fnmadd_round_ps" 5149;
  unimpl "_mm512_maskz_fnmadd_round_ps" 5159;
  unimpl "_mm512_fnmsub_round_pd" 5169;
  unimpl "_mm512_mask_fnmsub_round_pd" 5179;
  unimpl "_mm512_mask3_fnmsub_round_pd" 5189;
  unimpl "_mm512_maskz_fnmsub_round_pd" 5199;
  unimpl "_mm512_fnmsub_round_ps" 5209;
  unimpl "_mm512_mask_fnmsub_round_ps" 5219;
  unimpl "_mm512_mask3_fnmsub_round_ps" 5229;
  unimpl "_mm512_maskz_fnmsub_round_ps" 5239;
  toreg "_mm512_abs_epi64" 5249 [R64] 64;
  toreg "_mm512_mask_abs_epi64" 5267 [R64; M8; R64] 64;
  toreg "_mm512_maskz_abs_epi64" 5287 [M8; R64] 64;
  toreg "_mm512_abs_epi32" 5306 [R64] 64;
  toreg "_mm512_mask_abs_epi32" 5324 [R64; M16; R64] 64;
  toreg "_mm512_maskz_abs_epi32" 5344 [M16; R64] 64;
  toreg "_mm512_broadcastss_ps" 5363 [R16] 64;
  toreg "_mm512_mask_broadcastss_ps" 5381 [R64; M16; R16] 64;
  toreg "_mm512_maskz_broadcastss_ps" 5401 [M16; R16] 64;
  toreg "_mm512_broadcastsd_pd" 5420 [R16] 64;
  toreg "_mm512_mask_broadcastsd_pd" 5438 [R64; M8; R16] 64;
  toreg "_mm512_maskz_broadcastsd_pd" 5458 [M8; R16] 64;
  toreg "_mm512_broadcastd_epi32" 5477 [R16] 64;
  toreg "_mm512_mask_broadcastd_epi32" 5495 [R64; M16; R16] 64;
  toreg "_mm512_maskz_broadcastd_epi32" 5515 [M16; R16] 64;
  unimpl "_mm512_set1_epi32" 5534;
  unimpl "_mm512_mask_set1_epi32" 5544;
  unimpl "_mm512_maskz_set1_epi32" 5554;
  toreg "_mm512_broadcastq_epi64" 5564 [R16] 64;
  toreg "_mm512_mask_broadcastq_epi64" 5582 [R64; M8; R16] 64;
  toreg "_mm512_maskz_broadcastq_epi64" 5602 [M8; R16] 64;
  toreg "_mm512_set1_epi64" 5621 [KLong] 64;
  toreg "_mm512_mask_set1_epi64" 5639 [R64; M8; KLong] 64;
  toreg "_mm512_maskz_set1_epi64" 5659 [M8; KLong] 64;
  toreg "_mm512_broadcast_f32x4" 5678 [R16] 64;
  toreg "_mm512_mask_broadcast_f32x4" 5696 [R64; M16; R16] 64;
  toreg "_mm512_maskz_broadcast_f32x4" 5716 [M16; R16] 64;
  toreg "_mm512_broadcast_i32x4" 5735 [R16] 64;
  toreg "_mm512_mask_broadcast_i32x4" 5753 [R64; M16; R16] 64;
  toreg "_mm512_maskz_broadcast_i32x4" 5773 [M16; R16] 64;
  toreg "_mm512_broadcast_f64x4" 5792 [R32] 64;
  toreg "_mm512_mask_broadcast_f64x4" 5810 [R64; M8; R32] 64;
  toreg "_mm512_maskz_broadcast_f64x4" 5830 [M8; R32] 64;
  toreg "_mm512_broadcast_i64x4" 5849 [R32] 64;
  toreg "_mm512_mask_broadcast_i64x4" 5867 [R64; M8; R32] 64;
  toreg "_mm512_maskz_broadcast_i64x4" 5887 [M8; R32] 64;
  gated "_mm512_shuffle_epi32" 5906 3;
  gated "_mm512_mask_shuffle_epi32" 6703 5;
  gated "_mm512_maskz_shuffle_epi32" 7502 4;
  unimpl "_mm512_shuffle_i64x2" 8300;
  unimpl "_mm512_mask_shuffle_i64x2" 8310;
  unimpl "_mm512_maskz_shuffle_i64x2" 8320;
  unimpl "_mm512_shuffle_i32x4" 8330;
  unimpl "_mm512_mask_shuffle_i32x4" 8340;
  unimpl "_mm512_maskz_shuffle_i32x4" 8350;
  unimpl "_mm512_shuffle_f64x2" 8360;
  unimpl "_mm512_mask_shuffle_f64x2" 8370;
  unimpl "_mm512_maskz_shuffle_f64x2" 8380;
  unimpl "_mm512_shuffle_f32x4" 8390;
  unimpl "_mm512_mask_shuffle_f32x4" 8400;
  unimpl "_mm512_maskz_shuffle_f32x4" 8410;
  toreg "_mm512_rolv_epi32" 8420 [R64; R64] 64;
  toreg "_mm512_mask_rolv_epi32" 8439 [R64; M16; R64; R64] 64;
  toreg "_mm512_maskz_rolv_epi32" 8460 [M16; R64; R64] 64;
  toreg "_mm512_rorv_epi32" 8480 [R64; R64] 64;
  toreg "_mm512_mask_rorv_epi32" 8499 [R64; M16; R64; R64] 64;
  toreg "_mm512_maskz_rorv_epi32" 8520 [M16; R64; R64] 64;
  toreg "_mm512_rolv_epi64" 8540 [R64; R64] 64;
  toreg "_mm512_mask_rolv_epi64" 8559 [R64; M8; R64; R64] 64;
  toreg "_mm512_maskz_rolv_epi64" 8580 [M8; R64; R64] 64;
  toreg "_mm512_rorv_epi64" 8600 [R64; R64] 64;
  toreg "_mm512_mask_rorv_epi64" 8619 [R64; M8; R64; R64] 64;
  toreg "_mm512_maskz_rorv_epi64" 8640 [M8; R64; R64] 64;
  unimpl "_mm512_cvtt_roundpd_epi32" 8660;
  unimpl "_mm512_mask_cvtt_roundpd_epi32" 8670;
  unimpl "_mm512_maskz_cvtt_roundpd_epi32" 8680;
  unimpl "_mm512_cvtt_roundpd_epu32" 8690;
  unimpl "_mm512_mask_cvtt_roundpd_epu32" 8700;
  unimpl "_mm512_maskz_cvtt_roundpd_epu32" 8710;
  unimpl "_mm512_cvt_roundpd_epi32" 8720;
  unimpl "_mm512_mask_cvt_roundpd_epi32" 8730;
  unimpl "_mm512_maskz_cvt_roundpd_epi32" 8740;
  unimpl "_mm512_cvt_roundpd_epu32" 8750;
  unimpl "_mm512_mask_cvt_roundpd_epu32" 8760;
  unimpl "_mm512_maskz_cvt_roundpd_epu32" 8770;
  unimpl "_mm512_cvtt_roundps_epi32" 8780;
  unimpl "_mm512_mask_cvtt_roundps_epi32" 8790;
  unimpl "_mm512_maskz_cvtt_roundps_epi32" 8800;
  unimpl "_mm512_cvtt_roundps_epu32" 8810;
  unimpl "_mm512_mask_cvtt_roundps_epu32" 8820;
  unimpl "_mm512_maskz_cvtt_roundps_epu32" 8830;
  unimpl "_mm512_cvt_roundps_epi32" 8840;
  unimpl "_mm512_mask_cvt_roundps_epi32" 8850;
  unimpl "_mm512_maskz_cvt_roundps_epi32" 8860;
  unimpl "_mm512_cvt_roundps_epu32" 8870;
  unimpl "_mm512_mask_cvt_roundps_epu32" 8880;
  unimpl "_mm512_maskz_cvt_roundps_epu32" 8890;
  toreg "_mm_cvtu32_sd" 8900 [R16; KUint] 16;
  unimpl "_mm_cvt_roundu64_sd" 8919;
  unimpl "_mm_cvt_roundi64_sd" 8929;
  unimpl "_mm_cvt_roundsi64_sd" 8939;
  unimpl "_mm_cvt_roundu32_ss" 8949;
  unimpl "_mm_cvt_roundsi32_ss" 8959;
  unimpl "_mm_cvt_roundi32_ss" 8969;
  unimpl "_mm_cvt_roundu64_ss" 8979;
  unimpl "_mm_cvt_roundsi64_ss" 8989;
  unimpl "_mm_cvt_roundi64_ss" 8999;
  toreg "_mm512_cvtepi32_epi8" 9009 [R64] 16;
  tomem "_mm512_mask_cvtepi32_storeu_epi8" 9027 [KPtr; M16; R64];
  toreg "_mm512_mask_cvtepi32_epi8" 9047 [R16; M16; R64] 16;
  toreg "_mm512_maskz_cvtepi32_epi8" 9067 [M16; R64] 16;
  toreg "_mm512_cvtsepi32_epi8" 9086 [R64] 16;
  tomem "_mm512_mask_cvtsepi32_storeu_epi8" 9104 [KPtr; M16; R64];
  toreg "_mm512_mask_cvtsepi32_epi8" 9124 [R16; M16; R64] 16;
  toreg "_mm512_maskz_cvtsepi32_epi8" 9144 [M16; R64] 16;
  toreg "_mm512_cvtusepi32_epi8" 9163 [R64] 16;
  tomem "_mm512_mask_cvtusepi32_storeu_epi8" 9181 [KPtr; M16; R64];
  toreg "_mm512_mask_cvtusepi32_epi8" 9201 [R16; M16; R64] 16;
  toreg "_mm512_maskz_cvtusepi32_epi8" 9221 [M16; R64] 16;
  toreg "_mm512_cvtepi32_epi16" 9240 [R64] 32;
  tomem "_mm512_mask_cvtepi32_storeu_epi16" 9258 [KPtr; M16; R64];
  toreg "_mm512_mask_cvtepi32_epi16" 9278 [R32; M16; R64] 32;
  toreg "_mm512_maskz_cvtepi32_epi16" 9298 [M16; R64] 32;
  toreg "_mm512_cvtsepi32_epi16" 9317 [R64] 32;
  tomem "_mm512_mask_cvtsepi32_storeu_epi16" 9335 [KPtr; M16; R64];
  toreg "_mm512_mask_cvtsepi32_epi16" 9355 [R32; M16; R64] 32;
  toreg "_mm512_maskz_cvtsepi32_epi16" 9375 [M16; R64] 32;
  toreg "_mm512_cvtusepi32_epi16" 9394 [R64] 32;
  tomem "_mm512_mask_cvtusepi32_storeu_epi16" 9412 [KPtr; M16; R64];
  toreg "_mm512_mask_cvtusepi32_epi16" 9432 [R32; M16; R64] 32;
  toreg "_mm512_maskz_cvtusepi32_epi16" 9452 [M16; R64] 32;
  toreg "_mm512_cvtepi64_epi32" 9471 [R64] 32;
  tomem "_mm512_mask_cvtepi64_storeu_epi32" 9489 [KPtr; M8; R64];
  toreg "_mm512_mask_cvtepi64_epi32" 9509 [R32; M8; R64] 32;
  toreg "_mm512_maskz_cvtepi64_epi32" 9529 [M8; R64] 32;
  toreg "_mm512_cvtsepi64_epi32" 9548 [R64] 32;
  tomem "_mm512_mask_cvtsepi64_storeu_epi32" 9566 [KPtr; M8; R64];
  toreg "_mm512_mask_cvtsepi64_epi32" 9586 [R32; M8; R64] 32;
  toreg "_mm512_maskz_cvtsepi64_epi32" 9606 [M8; R64] 32;
  toreg "_mm512_cvtusepi64_epi32" 9625 [R64] 32;
  tomem "_mm512_mask_cvtusepi64_storeu_epi32" 9643 [KPtr; M8; R64];
  toreg "_mm512_mask_cvtusepi64_epi32" 9663 [R32; M8; R64] 32;
  toreg "_mm512_maskz_cvtusepi64_epi32" 9683 [M8; R64] 32;
  toreg "_mm512_cvtepi64_epi16" 9702 [R64] 16;
  tomem "_mm512_mask_cvtepi64_storeu_epi16" 9720 [KPtr; M8; R64];
  toreg "_mm512_mask_cvtepi64_epi16" 9740 [R16; M8; R64] 16;
  toreg "_mm512_maskz_cvtepi64_epi16" 9760 [M8; R64] 16;
  toreg "_mm512_cvtsepi64_epi16" 9779 [R64] 16;
  tomem "_mm512_mask_cvtsepi64_storeu_epi16" 9797 [KPtr; M8; R64];
  toreg "_mm512_mask_cvtsepi64_epi16" 9817 [R16; M8; R64] 16;
  toreg "_mm512_maskz_cvtsepi64_epi16" 9837 [M8; R64] 16;
  toreg "_mm512_cvtusepi64_epi16" 9856 [R64] 16;
  tomem "_mm512_mask_cvtusepi64_storeu_epi16" 9874 [KPtr; M8; R64];
  toreg "_mm512_mask_cvtusepi64_epi16" 9894 [R16; M8; R64] 16;
  toreg "_mm512_maskz_cvtusepi64_epi16" 9914 [M8; R64] 16;
  toreg "_mm512_cvtepi64_epi8" 9933 [R64] 16;
  tomem "_mm512_mask_cvtepi64_storeu_epi8" 9951 [KPtr; M8; R64];
  toreg "_mm512_mask_cvtepi64_epi8" 9971 [R16; M8; R64] 16;
  toreg "_mm512_maskz_cvtepi64_epi8" 9991 [M8; R64] 16;
  toreg "_mm512_cvtsepi64_epi8" 10010 [R64] 16;
  tomem "_mm512_mask_cvtsepi64_storeu_epi8" 10028 [KPtr; M8; R64];
  toreg "_mm512_mask_cvtsepi64_epi8" 10048 [R16; M8; R64] 16;
  toreg "_mm512_maskz_cvtsepi64_epi8" 10068 [M8; R64] 16;
  toreg "_mm512_cvtusepi64_epi8" 10087 [R64] 16;
  tomem "_mm512_mask_cvtusepi64_storeu_epi8" 10105 [KPtr; M8; R64];
  toreg "_mm512_mask_cvtusepi64_epi8" 10125 [R16; M8; R64] 16;
  toreg "_mm512_maskz_cvtusepi64_epi8" 10145 [M8; R64] 16;
  toreg "_mm512_cvtepi32_pd" 10164 [R32] 64;
  toreg "_mm512_mask_cvtepi32_pd" 10182 [R64; M8; R32] 64;
  toreg "_mm512_maskz_cvtepi32_pd" 10202 [M8; R32] 64;
  toreg "_mm512_cvtepu32_pd" 10221 [R32] 64;
  toreg "_mm512_mask_cvtepu32_pd" 10239 [R64; M8; R32] 64;
  toreg "_mm512_maskz_cvtepu32_pd" 10259 [M8; R32] 64;
  unimpl "_mm512_cvt_roundepi32_ps" 10278;
  unimpl "_mm512_mask_cvt_roundepi32_ps" 10288;
  unimpl "_mm512_maskz_cvt_roundepi32_ps" 10298;
  unimpl "_mm512_cvt_roundepu32_ps" 10308;
  unimpl "_mm512_mask_cvt_roundepu32_ps" 10318;
  unimpl "_mm512_maskz_cvt_roundepu32_ps" 10328;
  unimpl "_mm512_extractf64x4_pd" 10338;
  unimpl "_mm512_mask_extractf64x4_pd" 10348;
  unimpl "_mm512_maskz_extractf64x4_pd" 10358;
  unimpl "_mm512_extractf32x4_ps" 10368;
  unimpl "_mm512_mask_extractf32x4_ps" 10378;
  unimpl "_mm512_maskz_extractf32x4_ps" 10388;
  unimpl "_mm512_extracti64x4_epi64" 10398;
  unimpl "_mm512_mask_extracti64x4_epi64" 10408;
  unimpl "_mm512_maskz_extracti64x4_epi64" 10418;
  unimpl "_mm512_extracti32x4_epi32" 10428;
  unimpl "_mm512_mask_extracti32x4_epi32" 10438;
  unimpl "_mm512_maskz_extracti32x4_epi32" 10448;
  unimpl "_mm512_inserti32x4" 10458;
  unimpl "_mm512_insertf32x4" 10468;
  unimpl "_mm512_inserti64x4" 10478;
  unimpl "_mm512_mask_inserti64x4" 10488;
  unimpl "_mm512_maskz_inserti64x4" 10498;
  unimpl "_mm512_insertf64x4" 10508;
  unimpl "_mm512_mask_insertf64x4" 10518;
  unimpl "_mm512_maskz_insertf64x4" 10528;
  toreg "_mm512_loadu_pd" 10538 [KPtr] 64;
  toreg "_mm512_mask_loadu_pd" 10556 [R64; M8; KPtr] 64;
  toreg "_mm512_maskz_loadu_pd" 10576 [M8; KPtr] 64;
  tomem "_mm512_storeu_pd" 10595 [KPtr; R64];
  tomem "_mm512_mask_storeu_pd" 10614 [KPtr; M8; R64];
  toreg "_mm512_loadu_ps" 10634 [KPtr] 64;
  toreg "_mm512_mask_loadu_ps" 10652 [R64; M16; KPtr] 64;
  toreg "_mm512_maskz_loadu_ps" 10672 [M16; KPtr] 64;
  tomem "_mm512_storeu_ps" 10691 [KPtr; R64];
  tomem "_mm512_mask_storeu_ps" 10710 [KPtr; M16; R64];
  toreg "_mm_mask_load_ss" 10730 [R16; M8; KPtr] 16;
  toreg "_mm_maskz_load_ss" 10750 [M8; KPtr] 16;
  toreg "_mm_mask_load_sd" 10769 [R16; M8; KPtr] 16;
  toreg "_mm_maskz_load_sd" 10789 [M8; KPtr] 16;
  toreg "_mm_mask_move_ss" 10808 [R16; M8; R16; R16] 16;
  toreg "_mm_maskz_move_ss" 10829 [M8; R16; R16] 16;
  toreg "_mm_mask_move_sd" 10849 [R16; M8; R16; R16] 16;
  toreg "_mm_maskz_move_sd" 10870 [M8; R16; R16] 16;
  tomem "_mm_mask_store_ss" 10890 [KPtr; M8; R16];
  tomem "_mm_mask_store_sd" 10910 [KPtr; M8; R16];
  toreg "_mm512_loadu_epi64" 10930 [KPtr] 64;
  toreg "_mm512_mask_loadu_epi64" 10948 [R64; M8; KPtr] 64;
  toreg "_mm512_maskz_loadu_epi64" 10968 [M8; KPtr] 64;
  tomem "_mm512_storeu_epi64" 10987 [KPtr; R64];
  tomem "_mm512_mask_storeu_epi64" 11006 [KPtr; M8; R64];
  toreg "_mm512_loadu_si512" 11026 [KPtr] 64;
  toreg "_mm512_loadu_epi32" 11044 [KPtr] 64;
  toreg "_mm512_mask_loadu_epi32" 11062 [R64; M16; KPtr] 64;
  toreg "_mm512_maskz_loadu_epi32" 11082 [M16; KPtr] 64;
  tomem "_mm512_storeu_si512" 11101 [KPtr; R64];
  tomem "_mm512_storeu_epi32" 11120 [KPtr; R64];
  tomem "_mm512_mask_storeu_epi32" 11139 [KPtr; M16; R64];
  toreg "_mm512_permutevar_pd" 11159 [R64; R64] 64;
  toreg "_mm512_mask_permutevar_pd" 11178 [R64; M8; R64; R64] 64;
  toreg "_mm512_maskz_permutevar_pd" 11199 [M8; R64; R64] 64;
  toreg "_mm512_permutevar_ps" 11219 [R64; R64] 64;
  toreg "_mm512_mask_permutevar_ps" 11238 [R64; M16; R64; R64] 64;
  toreg "_mm512_maskz_permutevar_ps" 11259 [M16; R64; R64] 64;
  toreg "_mm512_permutex2var_epi64" 11279 [R64; R64; R64] 64;
  toreg "_mm512_mask_permutex2var_epi64" 11299 [R64; M8; R64; R64] 64;
  toreg "_mm512_mask2_permutex2var_epi64" 11320 [R64; R64; M8; R64] 64;
  toreg "_mm512_maskz_permutex2var_epi64" 11341 [M8; R64; R64; R64] 64;
  toreg "_mm512_permutex2var_epi32" 11362 [R64; R64; R64] 64;
  toreg "_mm512_mask_permutex2var_epi32" 11382 [R64; M16; R64; R64] 64;
  toreg "_mm512_mask2_permutex2var_epi32" 11403 [R64; R64; M16; R64] 64;
  toreg "_mm512_maskz_permutex2var_epi32" 11424 [M16; R64; R64; R64] 64;
  toreg "_mm512_permutex2var_pd" 11445 [R64; R64; R64] 64;
  toreg "_mm512_mask_permutex2var_pd" 11465 [R64; M8; R64; R64] 64;
  toreg "_mm512_mask2_permutex2var_pd" 11486 [R64; R64; M8; R64] 64;
  toreg "_mm512_maskz_permutex2var_pd" 11507 [M8; R64; R64; R64] 64;
  toreg "_mm512_permutex2var_ps" 11528 [R64; R64; R64] 64;
  toreg "_mm512_mask_permutex2var_ps" 11548 [R64; M16; R64; R64] 64;
  toreg "_mm512_mask2_permutex2var_ps" 11569 [R64; R64; M16; R64] 64;
  toreg "_mm512_maskz_permutex2var_ps" 11590 [M16; R64; R64; R64] 64;
  unimpl "_mm512_permute_pd" 11611;
  unimpl "_mm512_mask_permute_pd" 11621;
  unimpl "_mm512_maskz_permute_pd" 11631;
  unimpl "_mm512_permute_ps" 11641;
  unimpl "_mm512_mask_permute_ps" 11651;
  unimpl "_mm512_maskz_permute_ps" 11661;
  unimpl "_mm512_permutex_epi64" 11671;
  unimpl "_mm512_mask_permutex_epi64" 11681;
  unimpl "_mm512_maskz_permutex_epi64" 11691;
  unimpl "_mm512_permutex_pd" 11701;
  unimpl "_mm512_mask_permutex_pd" 11711;
  unimpl "_mm512_maskz_permutex_pd" 11721;
  toreg "_mm512_maskz_permutexvar_epi64" 11731 [M8; R64; R64] 64;
  toreg "_mm512_permutexvar_epi64" 11751 [R64; R64] 64;
  toreg "_mm512_mask_permutexvar_epi64" 11770 [R64; M8; R64; R64] 64;
  toreg "_mm512_maskz_permutexvar_epi32" 11791 [M16; R64; R64] 64;
  toreg "_mm512_permutexvar_epi32" 11811 [R64; R64] 64;
  toreg "_mm512_mask_permutexvar_epi32" 11830 [R64; M16; R64; R64] 64;
  toreg "_mm512_permutexvar_pd" 11851 [R64; R64] 64;
  toreg "_mm512_mask_permutexvar_pd" 11870 [R64; M8; R64; R64] 64;
  toreg "_mm512_maskz_permutexvar_pd" 11891 [M8; R64; R64] 64;
  toreg "_mm512_permutexvar_ps" 11911 [R64; R64] 64;
  toreg "_mm512_mask_permutexvar_ps" 11930 [R64; M16; R64; R64] 64;
  toreg "_mm512_maskz_permutexvar_ps" 11951 [M16; R64; R64] 64;
  unimpl "_mm512_shuffle_ps" 11971;
  unimpl "_mm512_mask_shuffle_ps" 11981;
  gated "_mm512_maskz_shuffle_ps" 11991 5;
  unimpl "_mm512_shuffle_pd" 12790;
  unimpl "_mm512_mask_shuffle_pd" 12800;
  unimpl "_mm512_maskz_shuffle_pd" 12810;
  unimpl "_mm512_fixupimm_round_pd" 12820;
  unimpl "_mm512_mask_fixupimm_round_pd" 12830;
  unimpl "_mm512_maskz_fixupimm_round_pd" 12840;
  unimpl "_mm512_fixupimm_round_ps" 12850;
  unimpl "_mm512_mask_fixupimm_round_ps" 12860;
  unimpl "_mm512_maskz_fixupimm_round_ps" 12870;
  unimpl "_mm_fixupimm_round_sd" 12880;
  unimpl "_mm_mask_fixupimm_round_sd" 12890;
  unimpl "_mm_maskz_fixupimm_round_sd" 12900;
  unimpl "_mm_fixupimm_round_ss" 12910;
  unimpl "_mm_mask_fixupimm_round_ss" 12920;
  unimpl "_mm_maskz_fixupimm_round_ss" 12930;
  toreg "_mm512_movehdup_ps" 12940 [R64] 64;
  toreg "_mm512_mask_movehdup_ps" 12958 [R64; M16; R64] 64;
  toreg "_mm512_maskz_movehdup_ps" 12978 [M16; R64] 64;
  toreg "_mm512_moveldup_ps" 12997 [R64] 64;
  toreg "_mm512_mask_moveldup_ps" 13015 [R64; M16; R64] 64;
  toreg "_mm512_maskz_moveldup_ps" 13035 [M16; R64] 64;
  toreg "_mm512_or_si512" 13054 [R64; R64] 64;
  toreg "_mm512_or_epi32" 13073 [R64; R64] 64;
  toreg "_mm512_mask_or_epi32" 13092 [R64; M16; R64; R64] 64;
  toreg "_mm512_maskz_or_epi32" 13113 [M16; R64; R64] 64;
  toreg "_mm512_or_epi64" 13133 [R64; R64] 64;
  toreg "_mm512_mask_or_epi64" 13152 [R64; M8; R64; R64] 64;
  toreg "_mm512_maskz_or_epi64" 13173 [M8; R64; R64] 64;
  toreg "_mm512_xor_si512" 13193 [R64; R64] 64;
  toreg "_mm512_xor_epi32" 13212 [R64; R64] 64;
  toreg "_mm512_mask_xor_epi32" 13231 [R64; M16; R64; R64] 64;
  toreg "_mm512_maskz_xor_epi32" 13252 [M16; R64; R64] 64;
  toreg "_mm512_xor_epi64" 13272 [R64; R64] 64;
  toreg "_mm512_mask_xor_epi64" 13291 [R64; M8; R64; R64] 64;
  toreg "_mm512_maskz_xor_epi64" 13312 [M8; R64; R64] 64;
  unimpl "_mm512_rol_epi32" 13332;
  unimpl "_mm512_mask_rol_epi32" 13342;
  unimpl "_mm512_maskz_rol_epi32" 13352;
  gated "_mm512_ror_epi32" 13362 3;
  unimpl "_mm512_mask_ror_epi32" 13487;
  gated "_mm512_maskz_ror_epi32" 13497 4;
  unimpl "_mm512_rol_epi64" 13623;
  unimpl "_mm512_mask_rol_epi64" 13633;
  unimpl "_mm512_maskz_rol_epi64" 13643;
  unimpl "_mm512_ror_epi64" 13653;
  unimpl "_mm512_mask_ror_epi64" 13663;
  unimpl "_mm512_maskz_ror_epi64" 13673;
  toreg "_mm512_and_si512" 13683 [R64; R64] 64;
  toreg "_mm512_and_epi32" 13702 [R64; R64] 64;
  toreg "_mm512_mask_and_epi32" 13721 [R64; M16; R64; R64] 64;
  toreg "_mm512_maskz_and_epi32" 13742 [M16; R64; R64] 64;
  toreg "_mm512_and_epi64" 13762 [R64; R64] 64;
  toreg "_mm512_mask_and_epi64" 13781 [R64; M8; R64; R64] 64;
  toreg "_mm512_maskz_and_epi64" 13802 [M8; R64; R64] 64;
  toreg "_mm512_andnot_si512" 13822 [R64; R64] 64;
  toreg "_mm512_andnot_epi32" 13841 [R64; R64] 64;
  toreg "_mm512_mask_andnot_epi32" 13860 [R64; M16; R64; R64] 64;
  toreg "_mm512_maskz_andnot_epi32" 13881 [M16; R64; R64] 64;
  toreg "_mm512_andnot_epi64" 13901 [R64; R64] 64;
  toreg "_mm512_mask_andnot_epi64" 13920 [R64; M8; R64; R64] 64;
  toreg "_mm512_maskz_andnot_epi64" 13941 [M8; R64; R64] 64;
  toreg "_mm512_test_epi32_mask" 13961 [R64; R64] 2;
  toreg "_mm512_mask_test_epi32_mask" 13980 [M16; R64; R64] 2;
  toreg "_mm512_test_epi64_mask" 14000 [R64; R64] 1;
  toreg "_mm512_mask_test_epi64_mask" 14019 [M8; R64; R64] 1;
  toreg "_mm512_testn_epi32_mask" 14039 [R64; R64] 2;
  toreg "_mm512_mask_testn_epi32_mask" 14058 [M16; R64; R64] 2;
  toreg "_mm512_testn_epi64_mask" 14078 [R64; R64] 1;
  toreg "_mm512_mask_testn_epi64_mask" 14097 [M8; R64; R64] 1;
  toreg "_mm512_abs_ps" 14117 [R64] 64;
  toreg "_mm512_mask_abs_ps" 14135 [R64; M16; R64] 64;
  toreg "_mm512_abs_pd" 14155 [R64] 64;
  toreg "_mm512_mask_abs_pd" 14173 [R64; M8; R64] 64;
  toreg "_mm512_unpackhi_epi32" 14193 [R64; R64] 64;
  toreg "_mm512_mask_unpackhi_epi32" 14212 [R64; M16; R64; R64] 64;
  toreg "_mm512_maskz_unpackhi_epi32" 14233 [M16; R64; R64] 64;
  toreg "_mm512_unpackhi_epi64" 14253 [R64; R64] 64;
  toreg "_mm512_mask_unpackhi_epi64" 14272 [R64; M8; R64; R64] 64;
  toreg "_mm512_maskz_unpackhi_epi64" 14293 [M8; R64; R64] 64;
  toreg "_mm512_unpacklo_epi32" 14313 [R64; R64] 64;
  toreg "_mm512_mask_unpacklo_epi32" 14332 [R64; M16; R64; R64] 64;
  toreg "_mm512_maskz_unpacklo_epi32" 14353 [M16; R64; R64] 64;
  toreg "_mm512_unpacklo_epi64" 14373 [R64; R64] 64;
  toreg "_mm512_mask_unpacklo_epi64" 14392 [R64; M8; R64; R64] 64;
  toreg "_mm512_maskz_unpacklo_epi64" 14413 [M8; R64; R64] 64;
  unimpl "_mm_cvt_roundss_u64" 14433;
  unimpl "_mm_cvt_roundss_si64" 14443;
  unimpl "_mm_cvt_roundss_i64" 14453;
  unimpl "_mm_cvtt_roundss_u64" 14463;
  unimpl "_mm_cvtt_roundss_i64" 14473;
  unimpl "_mm_cvtt_roundss_si64" 14483;
  unimpl "_mm_cvt_roundss_u32" 14493;
  unimpl "_mm_cvt_roundss_si32" 14503;
  unimpl "_mm_cvt_roundss_i32" 14513;
  unimpl "_mm_cvtt_roundss_u32" 14523;
  unimpl "_mm_cvtt_roundss_i32" 14533;
  unimpl "_mm_cvtt_roundss_si32" 14543;
  unimpl "_mm_cvt_roundsd_u64" 14553;
  unimpl "_mm_cvt_roundsd_si64" 14563;
  unimpl "_mm_cvt_roundsd_i64" 14573;
  unimpl "_mm_cvtt_roundsd_u64" 14583;
  unimpl "_mm_cvtt_roundsd_si64" 14593;
  unimpl "_mm_cvtt_roundsd_i64" 14603;
  unimpl "_mm_cvt_roundsd_u32" 14613;
  unimpl "_mm_cvt_roundsd_si32" 14623;
  unimpl "_mm_cvt_roundsd_i32" 14633;
  unimpl "_mm_cvtt_roundsd_u32" 14643;
  unimpl "_mm_cvtt_roundsd_i32" 14653;
  unimpl "_mm_cvtt_roundsd_si32" 14663;
  toreg "_mm512_movedup_pd" 14673 [R64] 64;
  toreg "_mm512_mask_movedup_pd" 14691 [R64; M8; R64] 64;
  toreg "_mm512_maskz_movedup_pd" 14711 [M8; R64] 64;
  toreg "_mm512_unpacklo_pd" 14730 [R64; R64] 64;
  toreg "_mm512_mask_unpacklo_pd" 14749 [R64; M8; R64; R64] 64;
  toreg "_mm512_maskz_unpacklo_pd" 14770 [M8; R64; R64] 64;
  toreg "_mm512_unpackhi_pd" 14790 [R64; R64] 64;
  toreg "_mm512_mask_unpackhi_pd" 14809 [R64; M8; R64; R64] 64;
  toreg "_mm512_maskz_unpackhi_pd" 14830 [M8; R64; R64] 64;
  toreg "_mm512_unpackhi_ps" 14850 [R64; R64] 64;
  toreg "_mm512_mask_unpackhi_ps" 14869 [R64; M16; R64; R64] 64;
  toreg "_mm512_maskz_unpackhi_ps" 14890 [M16; R64; R64] 64;
  unimpl "_mm512_cvt_roundps_pd" 14910;
  unimpl "_mm512_mask_cvt_roundps_pd" 14920;
  unimpl "_mm512_maskz_cvt_roundps_pd" 14930;
  unimpl "_mm512_cvt_roundph_ps" 14940;
  unimpl "_mm512_mask_cvt_roundph_ps" 14950;
  unimpl "_mm512_maskz_cvt_roundph_ps" 14960;
  unimpl "_mm512_cvt_roundps_ph" 14970;
  unimpl "_mm512_cvtps_ph" 14980;
  unimpl "_mm512_mask_cvt_roundps_ph" 14990;
  unimpl "_mm512_mask_cvtps_ph" 15000;
  unimpl "_mm512_maskz_cvt_roundps_ph" 15010;
  unimpl "_mm512_maskz_cvtps_ph" 15020;
  unimpl "_mm512_cvt_roundpd_ps" 15030;
  unimpl "_mm512_mask_cvt_roundpd_ps" 15040;
  unimpl "_mm512_maskz_cvt_roundpd_ps" 15050;
  unimpl "_mm_cvt_roundsd_ss" 15060;
  unimpl "_mm_mask_cvt_roundsd_ss" 15070;
  unimpl "_mm_maskz_cvt_roundsd_ss" 15080;
  unimpl "_mm_cvt_roundss_sd" 15090;
  unimpl "_mm_mask_cvt_roundss_sd" 15100;
  unimpl "_mm_maskz_cvt_roundss_sd" 15110;
  tomem "_mm512_stream_si512" 15120 [KPtr; R64];
  tomem "_mm512_stream_ps" 15139 [KPtr; R64];
  tomem "_mm512_stream_pd" 15158 [KPtr; R64];
  toreg "_mm512_stream_load_si512" 15177 [KPtr] 64;
  gated "_mm_getexp_round_ss" 15195 4;
  gated "_mm_mask_getexp_round_ss" 15240 6;
  gated "_mm_maskz_getexp_round_ss" 15287 5;
  gated "_mm_getexp_round_sd" 15333 4;
  gated "_mm_mask_getexp_round_sd" 15378 6;
  gated "_mm_maskz_getexp_round_sd" 15425 5;
  gated "_mm512_getexp_round_ps" 15471 3;
  unimpl "_mm512_mask_getexp_round_ps" 15512;
  unimpl "_mm512_maskz_getexp_round_ps" 15522;
  gated "_mm512_getexp_round_pd" 15532 3;
  unimpl "_mm512_mask_getexp_round_pd" 15573;
  unimpl "_mm512_maskz_getexp_round_pd" 15583;
  gated "_mm512_getmant_round_pd" 15593 5;
  gated "_mm512_mask_getmant_round_pd" 15951 7;
  gated "_mm512_maskz_getmant_round_pd" 16311 6;
  gated "_mm512_getmant_round_ps" 16670 5;
  gated "_mm512_mask_getmant_round_ps" 17028 7;
  gated "_mm512_maskz_getmant_round_ps" 17388 6;
  gated "_mm_getmant_round_sd" 17747 6;
  unimpl "_mm_mask_getmant_round_sd" 18106;
  unimpl "_mm_maskz_getmant_round_sd" 18116;
  unimpl "_mm_getmant_round_ss" 18126;
  unimpl "_mm_mask_getmant_round_ss" 18136;
  unimpl "_mm_maskz_getmant_round_ss" 18146;
  unimpl "_mm512_roundscale_round_ps" 18156;
  unimpl "_mm512_mask_roundscale_round_ps" 18166;
  unimpl "_mm512_maskz_roundscale_round_ps" 18176;
  unimpl "_mm512_roundscale_round_pd" 18186;
  unimpl "_mm512_mask_roundscale_round_pd" 18196;
  unimpl "_mm512_maskz_roundscale_round_pd" 18206;
  unimpl "_mm_roundscale_round_ss" 18216;
  unimpl "_mm_mask_roundscale_round_ss" 18226;
  unimpl "_mm_maskz_roundscale_round_ss" 18236;
  unimpl "_mm_roundscale_round_sd" 18246;
  unimpl "_mm_mask_roundscale_round_sd" 18256;
  unimpl "_mm_maskz_roundscale_round_sd" 18266;
  toreg "_mm512_floor_ps" 18276 [R64] 64;
  toreg "_mm512_floor_pd" 18294 [R64] 64;
  toreg "_mm512_ceil_ps" 18312 [R64] 64;
  toreg "_mm512_ceil_pd" 18330 [R64] 64;
  toreg "_mm512_mask_floor_ps" 18348 [R64; M16; R64] 64;
  toreg "_mm512_mask_floor_pd" 18368 [R64; M8; R64] 64;
  toreg "_mm512_mask_ceil_ps" 18388 [R64; M16; R64] 64;
  toreg "_mm512_mask_ceil_pd" 18408 [R64; M8; R64] 64;
  unimpl "_mm512_alignr_epi32" 18428;
  unimpl "_mm512_mask_alignr_epi32" 18438;
  unimpl "_mm512_maskz_alignr_epi32" 18448;
  unimpl "_mm512_alignr_epi64" 18458;
  unimpl "_mm512_mask_alignr_epi64" 18468;
  unimpl "_mm512_maskz_alignr_epi64" 18478;
  toreg "_mm512_cmpeq_epi32_mask" 18488 [R64; R64] 2;
  toreg "_mm512_mask_cmpeq_epi32_mask" 18507 [M16; R64; R64] 2;
  toreg "_mm512_mask_cmpeq_epi64_mask" 18527 [M8; R64; R64] 1;
  toreg "_mm512_cmpeq_epi64_mask" 18547 [R64; R64] 1;
  toreg "_mm512_cmpgt_epi32_mask" 18566 [R64; R64] 2;
  toreg "_mm512_mask_cmpgt_epi32_mask" 18585 [M16; R64; R64] 2;
  toreg "_mm512_mask_cmpgt_epi64_mask" 18605 [M8; R64; R64] 1;
  toreg "_mm512_cmpgt_epi64_mask" 18625 [R64; R64] 1;
  toreg "_mm512_cmpge_epi32_mask" 18644 [R64; R64] 2;
  toreg "_mm512_mask_cmpge_epi32_mask" 18663 [M16; R64; R64] 2;
  toreg "_mm512_mask_cmpge_epu32_mask" 18683 [M16; R64; R64] 2;
  toreg "_mm512_cmpge_epu32_mask" 18703 [R64; R64] 2;
  toreg "_mm512_mask_cmpge_epi64_mask" 18722 [M8; R64; R64] 1;
  toreg "_mm512_cmpge_epi64_mask" 18742 [R64; R64] 1;
  toreg "_mm512_mask_cmpge_epu64_mask" 18761 [M8; R64; R64] 1;
  toreg "_mm512_cmpge_epu64_mask" 18781 [R64; R64] 1;
  toreg "_mm512_mask_cmple_epi32_mask" 18800 [M16; R64; R64] 2;
  toreg "_mm512_cmple_epi32_mask" 18820 [R64; R64] 2;
  toreg "_mm512_mask_cmple_epu32_mask" 18839 [M16; R64; R64] 2;
  toreg "_mm512_cmple_epu32_mask" 18859 [R64; R64] 2;
  toreg "_mm512_mask_cmple_epi64_mask" 18878 [M8; R64; R64] 1;
  toreg "_mm512_cmple_epi64_mask" 18898 [R64; R64] 1;
  toreg "_mm512_mask_cmple_epu64_mask" 18917 [M8; R64; R64] 1;
  toreg "_mm512_cmple_epu64_mask" 18937 [R64; R64] 1;
  toreg "_mm512_mask_cmplt_epi32_mask" 18956 [M16; R64; R64] 2;
  toreg "_mm512_cmplt_epi32_mask" 18976 [R64; R64] 2;
  toreg "_mm512_mask_cmplt_epu32_mask" 18995 [M16; R64; R64] 2;
  toreg "_mm512_cmplt_epu32_mask" 19015 [R64; R64] 2;
  toreg "_mm512_mask_cmplt_epi64_mask" 19034 [M8; R64; R64] 1;
  toreg "_mm512_cmplt_epi64_mask" 19054 [R64; R64] 1;
  toreg "_mm512_mask_cmplt_epu64_mask" 19073 [M8; R64; R64] 1;
  toreg "_mm512_cmplt_epu64_mask" 19093 [R64; R64] 1;
  toreg "_mm512_cmpneq_epi32_mask" 19112 [R64; R64] 2;
  toreg "_mm512_mask_cmpneq_epi32_mask" 19131 [M16; R64; R64] 2;
  toreg "_mm512_mask_cmpneq_epu32_mask" 19151 [M16; R64; R64] 2;
  toreg "_mm512_cmpneq_epu32_mask" 19171 [R64; R64] 2;
  toreg "_mm512_mask_cmpneq_epi64_mask" 19190 [M8; R64; R64] 1;
  toreg "_mm512_cmpneq_epi64_mask" 19210 [R64; R64] 1;
  toreg "_mm512_mask_cmpneq_epu64_mask" 19229 [M8; R64; R64] 1;
  toreg "_mm512_cmpneq_epu64_mask" 19249 [R64; R64] 1;
  unimpl "_kshiftli_mask16" 19268;
  unimpl "_kshiftri_mask16" 19278;
  unimpl "_mm512_cmp_epi64_mask" 19288;
  unimpl "_mm512_cmp_epi32_mask" 19298;
  unimpl "_mm512_cmp_epu64_mask" 19308;
  unimpl "_mm512_cmp_epu32_mask" 19318;
  unimpl "_mm512_cmp_round_pd_mask" 19328;
  unimpl "_mm512_cmp_round_ps_mask" 19338;
  unimpl "_mm512_mask_cmp_epi64_mask" 19348;
  unimpl "_mm512_mask_cmp_epi32_mask" 19358;
  unimpl "_mm512_mask_cmp_epu64_mask" 19368;
  unimpl "_mm512_mask_cmp_epu32_mask" 19378;
  unimpl "_mm512_mask_cmp_round_pd_mask" 19388;
  unimpl "_mm512_mask_cmp_round_ps_mask" 19398;
  unimpl "_mm_cmp_round_sd_mask" 19408;
  unimpl "_mm_mask_cmp_round_sd_mask" 19418;
  unimpl "_mm_cmp_round_ss_mask" 19428;
  unimpl "_mm_mask_cmp_round_ss_mask" 19438;
  unimpl "_mm512_i32gather_ps" 19448;
  unimpl "_mm512_mask_i32gather_ps" 19458;
  unimpl "_mm512_i32gather_pd" 19468;
  unimpl "_mm512_mask_i32gather_pd" 19478;
  unimpl "_mm512_i64gather_ps" 19488;
  unimpl "_mm512_mask_i64gather_ps" 19498;
  unimpl "_mm512_i64gather_pd" 19508;
  unimpl "_mm512_mask_i64gather_pd" 19518;
  unimpl "_mm512_i32gather_epi32" 19528;
  unimpl "_mm512_mask_i32gather_epi32" 19538;
  unimpl "_mm512_i32gather_epi64" 19548;
  unimpl "_mm512_mask_i32gather_epi64" 19558;
  unimpl "_mm512_i64gather_epi32" 19568;
  unimpl "_mm512_mask_i64gather_epi32" 19578;
  unimpl "_mm512_i64gather_epi64" 19588;
  unimpl "_mm512_mask_i64gather_epi64" 19598;
  unimpl "_mm512_i32scatter_ps" 19608;
  unimpl "_mm512_mask_i32scatter_ps" 19618;
  unimpl "_mm512_i32scatter_pd" 19628;
  unimpl "_mm512_mask_i32scatter_pd" 19638;
  unimpl "_mm512_i64scatter_ps" 19648;
  unimpl "_mm512_mask_i64scatter_ps" 19658;
  unimpl "_mm512_i64scatter_pd" 19668;
  unimpl "_mm512_mask_i64scatter_pd" 19678;
  unimpl "_mm512_i32scatter_epi32" 19688;
  unimpl "_mm512_mask_i32scatter_epi32" 19698;
  unimpl "_mm512_i32scatter_epi64" 19708;
  unimpl "_mm512_mask_i32scatter_epi64" 19718;
  unimpl "_mm512_i64scatter_epi32" 19728;
  unimpl "_mm512_mask_i64scatter_epi32" 19738;
  unimpl "_mm512_i64scatter_epi64" 19748;
  unimpl "_mm512_mask_i64scatter_epi64" 19758;
  toreg "_mm512_mask_compress_pd" 19768 [R64; M8; R64] 64;
  toreg "_mm512_maskz_compress_pd" 19788 [M8; R64] 64;
  tomem "_mm512_mask_compressstoreu_pd" 19807 [KPtr; M8; R64];
  toreg "_mm512_mask_compress_ps" 19827 [R64; M16; R64] 64;
  toreg "_mm512_maskz_compress_ps" 19847 [M16; R64] 64;
  tomem "_mm512_mask_compressstoreu_ps" 19866 [KPtr; M16; R64];
  toreg "_mm512_mask_compress_epi64" 19886 [R64; M8; R64] 64;
  toreg "_mm512_maskz_compress_epi64" 19906 [M8; R64] 64;
  tomem "_mm512_mask_compressstoreu_epi64" 19925 [KPtr; M8; R64];
  toreg "_mm512_mask_compress_epi32" 19945 [R64; M16; R64] 64;
  toreg "_mm512_maskz_compress_epi32" 19965 [M16; R64] 64;
  tomem "_mm512_mask_compressstoreu_epi32" 19984 [KPtr; M16; R64];
  toreg "_mm512_mask_expand_pd" 20004 [R64; M8; R64] 64;
  toreg "_mm512_maskz_expand_pd" 20024 [M8; R64] 64;
  toreg "_mm512_mask_expandloadu_pd" 20043 [R64; M8; KPtr] 64;
  toreg "_mm512_maskz_expandloadu_pd" 20063 [M8; KPtr] 64;
  toreg "_mm512_mask_expand_ps" 20082 [R64; M16; R64] 64;
  toreg "_mm512_maskz_expand_ps" 20102 [M16; R64] 64;
  toreg "_mm512_mask_expandloadu_ps" 20121 [R64; M16; KPtr] 64;
  toreg "_mm512_maskz_expandloadu_ps" 20141 [M16; KPtr] 64;
  toreg "_mm512_mask_expand_epi64" 20160 [R64; M8; R64] 64;
  toreg "_mm512_maskz_expand_epi64" 20180 [M8; R64] 64;
  toreg "_mm512_mask_expandloadu_epi64" 20199 [R64; M8; KPtr] 64;
  toreg "_mm512_maskz_expandloadu_epi64" 20219 [M8; KPtr] 64;
  toreg "_mm512_mask_expand_epi32" 20238 [R64; M16; R64] 64;
  toreg "_mm512_maskz_expand_epi32" 20258 [M16; R64] 64;
  toreg "_mm512_mask_expandloadu_epi32" 20277 [R64; M16; KPtr] 64;
  toreg "_mm512_maskz_expandloadu_epi32" 20297 [M16; KPtr] 64;
  toreg "_kortest_mask16_u8" 20316 [M16; M16; KPtr] 1;
  toreg "_kortestz_mask16_u8" 20336 [M16; M16] 1;
  toreg "_kortestc_mask16_u8" 20355 [M16; M16] 1;
  toreg "_cvtmask16_u32" 20374 [M16] 4;
  toreg "_cvtu32_mask16" 20392 [KUint] 2;
  toreg "_load_mask16" 20410 [KPtr] 2;
  tomem "_store_mask16" 20428 [KPtr; M16];
  toreg "_mm512_kand" 20447 [M16; M16] 2;
  toreg "_mm512_kandn" 20466 [M16; M16] 2;
  toreg "_mm512_kor" 20485 [M16; M16] 2;
  toreg "_mm512_kortestz" 20504 [M16; M16] 4;
  toreg "_mm512_kortestc" 20523 [M16; M16] 4;
  toreg "_mm512_kxnor" 20542 [M16; M16] 2;
  toreg "_mm512_kxor" 20561 [M16; M16] 2;
  toreg "_mm512_knot" 20580 [M16] 2;
  toreg "_mm512_kunpackb" 20598 [M16; M16] 2;
  unimpl "_mm512_maskz_inserti32x4" 20617;
  unimpl "_mm512_maskz_insertf32x4" 20627;
  unimpl "_mm512_mask_inserti32x4" 20637;
  unimpl "_mm512_mask_insertf32x4" 20647;
  toreg "_mm512_max_epi64" 20657 [R64; R64] 64;
  toreg "_mm512_maskz_max_epi64" 20676 [M8; R64; R64] 64;
  toreg "_mm512_mask_max_epi64" 20696 [R64; M8; R64; R64] 64;
  toreg "_mm512_min_epi64" 20717 [R64; R64] 64;
  toreg "_mm512_mask_min_epi64" 20736 [R64; M8; R64; R64] 64;
  toreg "_mm512_maskz_min_epi64" 20757 [M8; R64; R64] 64;
  toreg "_mm512_max_epu64" 20777 [R64; R64] 64;
  toreg "_mm512_maskz_max_epu64" 20796 [M8; R64; R64] 64;
  toreg "_mm512_mask_max_epu64" 20816 [R64; M8; R64; R64] 64;
  toreg "_mm512_min_epu64" 20837 [R64; R64] 64;
  toreg "_mm512_mask_min_epu64" 20856 [R64; M8; R64; R64] 64;
  toreg "_mm512_maskz_min_epu64" 20877 [M8; R64; R64] 64;
  toreg "_mm512_max_epi32" 20897 [R64; R64] 64;
  toreg "_mm512_maskz_max_epi32" 20916 [M16; R64; R64] 64;
  toreg "_mm512_mask_max_epi32" 20936 [R64; M16; R64; R64] 64;
  toreg "_mm512_min_epi32" 20957 [R64; R64] 64;
  toreg "_mm512_maskz_min_epi32" 20976 [M16; R64; R64] 64;
  toreg "_mm512_mask_min_epi32" 20996 [R64; M16; R64; R64] 64;
  toreg "_mm512_max_epu32" 21017 [R64; R64] 64;
  toreg "_mm512_maskz_max_epu32" 21036 [M16; R64; R64] 64;
  toreg "_mm512_mask_max_epu32" 21056 [R64; M16; R64; R64] 64;
  toreg "_mm512_min_epu32" 21077 [R64; R64] 64;
  toreg "_mm512_maskz_min_epu32" 21096 [M16; R64; R64] 64;
  toreg "_mm512_mask_min_epu32" 21116 [R64; M16; R64; R64] 64;
  toreg "_mm512_unpacklo_ps" 21137 [R64; R64] 64;
  toreg "_mm512_mask_unpacklo_ps" 21156 [R64; M16; R64; R64] 64;
  toreg "_mm512_maskz_unpacklo_ps" 21177 [M16; R64; R64] 64;
  unimpl "_mm_max_round_sd" 21197;
  unimpl "_mm_mask_max_round_sd" 21207;
  unimpl "_mm_maskz_max_round_sd" 21217;
  unimpl "_mm_max_round_ss" 21227;
  unimpl "_mm_mask_max_round_ss" 21237;
  unimpl "_mm_maskz_max_round_ss" 21247;
  unimpl "_mm_min_round_sd" 21257;
  unimpl "_mm_mask_min_round_sd" 21267;
  unimpl "_mm_maskz_min_round_sd" 21277;
  unimpl "_mm_min_round_ss" 21287;
  unimpl "_mm_mask_min_round_ss" 21297;
  unimpl "_mm_maskz_min_round_ss" 21307;
  toreg "_mm512_mask_blend_pd" 21317 [M8; R64; R64] 64;
  toreg "_mm512_mask_blend_ps" 21337 [M16; R64; R64] 64;
  toreg "_mm512_mask_blend_epi64" 21357 [M8; R64; R64] 64;
  toreg "_mm512_mask_blend_epi32" 21377 [M16; R64; R64] 64;
  unimpl "_mm_fmadd_round_sd" 21397;
  unimpl "_mm_fmadd_round_ss" 21407;
  unimpl "_mm_fmsub_round_sd" 21417;
  unimpl "_mm_fmsub_round_ss" 21427;
  unimpl "_mm_fnmadd_round_sd" 21437;
  unimpl "_mm_fnmadd_round_ss" 21447;
  unimpl "_mm_fnmsub_round_sd" 21457;
  unimpl "_mm_fnmsub_round_ss" 21467;
  toreg "_mm_mask_fmadd_sd" 21477 [R16; M8; R16; R16] 16;
  toreg "_mm_mask_fmadd_ss" 21498 [R16; M8; R16; R16] 16;
  toreg "_mm_mask3_fmadd_sd" 21519 [R16; R16; R16; M8] 16;
  toreg "_mm_mask3_fmadd_ss" 21540 [R16; R16; R16; M8] 16;
  toreg "_mm_maskz_fmadd_sd" 21561 [M8; R16; R16; R16] 16;
  toreg "_mm_maskz_fmadd_ss" 21582 [M8; R16; R16; R16] 16;
  toreg "_mm_mask_fmsub_sd" 21603 [R16; M8; R16; R16] 16;
  toreg "_mm_mask_fmsub_ss" 21624 [R16; M8; R16; R16] 16;
  toreg "_mm_mask3_fmsub_sd" 21645 [R16; R16; R16; M8] 16;
  toreg "_mm_mask3_fmsub_ss" 21666 [R16; R16; R16; M8] 16;
  toreg "_mm_maskz_fmsub_sd" 21687 [M8; R16; R16; R16] 16;
  toreg "_mm_maskz_fmsub_ss" 21708 [M8; R16; R16; R16] 16;
  toreg "_mm_mask_fnmadd_sd" 21729 [R16; M8; R16; R16] 16;
  toreg "_mm_mask_fnmadd_ss" 21750 [R16; M8; R16; R16] 16;
  toreg "_mm_mask3_fnmadd_sd" 21771 [R16; R16; R16; M8] 16;
  toreg "_mm_mask3_fnmadd_ss" 21792 [R16; R16; R16; M8] 16;
  toreg "_mm_maskz_fnmadd_sd" 21813 [M8; R16; R16; R16] 16;
  toreg "_mm_maskz_fnmadd_ss" 21834 [M8; R16; R16; R16] 16;
  toreg "_mm_mask_fnmsub_sd" 21855 [R16; M8; R16; R16] 16;
  toreg "_mm_mask_fnmsub_ss" 21876 [R16; M8; R16; R16] 16;
  toreg "_mm_mask3_fnmsub_sd" 21897 [R16; R16; R16; M8] 16;
  toreg "_mm_mask3_fnmsub_ss" 21918 [R16; R16; R16; M8] 16;
  toreg "_mm_maskz_fnmsub_sd" 21939 [M8; R16; R16; R16] 16;
  toreg "_mm_maskz_fnmsub_ss" 21960 [M8; R16; R16; R16] 16;
  unimpl "_mm_mask_fmadd_round_sd" 21981;
  unimpl "_mm_mask_fmadd_round_ss" 21991;
  unimpl "_mm_mask3_fmadd_round_sd" 22001;
  unimpl "_mm_mask3_fmadd_round_ss" 22011;
  unimpl "_mm_maskz_fmadd_round_sd" 22021;
  unimpl "_mm_maskz_fmadd_round_ss" 22031;
  unimpl "_mm_mask_fmsub_round_sd" 22041;
  unimpl "_mm_mask_fmsub_round_ss" 22051;
  unimpl "_mm_mask3_fmsub_round_sd" 22061;
  unimpl "_mm_mask3_fmsub_round_ss" 22071;
  unimpl "_mm_maskz_fmsub_round_sd" 22081;
  unimpl "_mm_maskz_fmsub_round_ss" 22091;
  unimpl "_mm_mask_fnmadd_round_sd" 22101;
  unimpl "_mm_mask_fnmadd_round_ss" 22111;
  unimpl "_mm_mask3_fnmadd_round_sd" 22121;
  unimpl "_mm_mask3_fnmadd_round_ss" 22131;
  unimpl "_mm_maskz_fnmadd_round_sd" 22141;
  unimpl "_mm_maskz_fnmadd_round_ss" 22151;
  unimpl "_mm_mask_fnmsub_round_sd" 22161;
  unimpl "_mm_mask_fnmsub_round_ss" 22171;
  unimpl "_mm_mask3_fnmsub_round_sd" 22181;
  unimpl "_mm_mask3_fnmsub_round_ss" 22191;
  unimpl "_mm_maskz_fnmsub_round_sd" 22201;
  unimpl "_mm_maskz_fnmsub_round_ss" 22211;
  unimpl "_mm_comi_round_ss" 22221;
  unimpl "_mm_comi_round_sd" 22231;
  toreg "_mm512_sqrt_pd" 22241 [R64] 64;
  toreg "_mm512_mask_sqrt_pd" 22259 [R64; M8; R64] 64;
  toreg "_mm512_maskz_sqrt_pd" 22279 [M8; R64] 64;
  toreg "_mm512_sqrt_ps" 22298 [R64] 64;
  toreg "_mm512_mask_sqrt_ps" 22316 [R64; M16; R64] 64;
  toreg "_mm512_maskz_sqrt_ps" 22336 [M16; R64] 64;
  toreg "_mm512_add_pd" 22355 [R64; R64] 64;
  toreg "_mm512_mask_add_pd" 22374 [R64; M8; R64; R64] 64;
  toreg "_mm512_maskz_add_pd" 22395 [M8; R64; R64] 64;
  toreg "_mm512_add_ps" 22415 [R64; R64] 64;
  toreg "_mm512_mask_add_ps" 22434 [R64; M16; R64; R64] 64;
  toreg "_mm512_maskz_add_ps" 22455 [M16; R64; R64] 64;
  toreg "_mm_mask_add_sd" 22475 [R16; M8; R16; R16] 16;
  toreg "_mm_maskz_add_sd" 22496 [M8; R16; R16] 16;
  toreg "_mm_mask_add_ss" 22516 [R16; M8; R16; R16] 16;
  toreg "_mm_maskz_add_ss" 22537 [M8; R16; R16] 16;
  toreg "_mm512_sub_pd" 22557 [R64; R64] 64;
  toreg "_mm512_mask_sub_pd" 22576 [R64; M8; R64; R64] 64;
  toreg "_mm512_maskz_sub_pd" 22597 [M8; R64; R64] 64;
  toreg "_mm512_sub_ps" 22617 [R64; R64] 64;
  toreg "_mm512_mask_sub_ps" 22636 [R64; M16; R64; R64] 64;
  toreg "_mm512_maskz_sub_ps" 22657 [M16; R64; R64] 64;
  toreg "_mm_mask_sub_sd" 22677 [R16; M8; R16; R16] 16;
  toreg "_mm_maskz_sub_sd" 22698 [M8; R16; R16] 16;
  toreg "_mm_mask_sub_ss" 22718 [R16; M8; R16; R16] 16;
  toreg "_mm_maskz_sub_ss" 22739 [M8; R16; R16] 16;
  toreg "_mm512_mul_pd" 22759 [R64; R64] 64;
  toreg "_mm512_mask_mul_pd" 22778 [R64; M8; R64; R64] 64;
  toreg "_mm512_maskz_mul_pd" 22799 [M8; R64; R64] 64;
  toreg "_mm512_mul_ps" 22819 [R64; R64] 64;
  toreg "_mm512_mask_mul_ps" 22838 [R64; M16; R64; R64] 64;
  toreg "_mm512_maskz_mul_ps" 22859 [M16; R64; R64] 64;
  toreg "_mm_mask_mul_sd" 22879 [R16; M8; R16; R16] 16;
  toreg "_mm_maskz_mul_sd" 22900 [M8; R16; R16] 16;
  toreg "_mm_mask_mul_ss" 22920 [R16; M8; R16; R16] 16;
  toreg "_mm_maskz_mul_ss" 22941 [M8; R16; R16] 16;
  toreg "_mm512_div_pd" 22961 [R64; R64] 64;
  toreg "_mm512_mask_div_pd" 22980 [R64; M8; R64; R64] 64;
  toreg "_mm512_maskz_div_pd" 23001 [M8; R64; R64] 64;
  toreg "_mm512_div_ps" 23021 [R64; R64] 64;
  toreg "_mm512_mask_div_ps" 23040 [R64; M16; R64; R64] 64;
  toreg "_mm512_maskz_div_ps" 23061 [M16; R64; R64] 64;
  toreg "_mm_mask_div_sd" 23081 [R16; M8; R16; R16] 16;
  toreg "_mm_maskz_div_sd" 23102 [M8; R16; R16] 16;
  toreg "_mm_mask_div_ss" 23122 [R16; M8; R16; R16] 16;
  toreg "_mm_maskz_div_ss" 23143 [M8; R16; R16] 16;
  toreg "_mm512_max_pd" 23163 [R64; R64] 64;
  toreg "_mm512_mask_max_pd" 23182 [R64; M8; R64; R64] 64;
  toreg "_mm512_maskz_max_pd" 23203 [M8; R64; R64] 64;
  toreg "_mm512_max_ps" 23223 [R64; R64] 64;
  toreg "_mm512_mask_max_ps" 23242 [R64; M16; R64; R64] 64;
  toreg "_mm512_maskz_max_ps" 23263 [M16; R64; R64] 64;
  toreg "_mm_mask_max_sd" 23283 [R16; M8; R16; R16] 16;
  toreg "_mm_maskz_max_sd" 23304 [M8; R16; R16] 16;
  toreg "_mm_mask_max_ss" 23324 [R16; M8; R16; R16] 16;
  toreg "_mm_maskz_max_ss" 23345 [M8; R16; R16] 16;
  toreg "_mm512_min_pd" 23365 [R64; R64] 64;
  toreg "_mm512_mask_min_pd" 23384 [R64; M8; R64; R64] 64;
  toreg "_mm512_maskz_min_pd" 23405 [M8; R64; R64] 64;
  toreg "_mm512_min_ps" 23425 [R64; R64] 64;
  toreg "_mm512_mask_min_ps" 23444 [R64; M16; R64; R64] 64;
  toreg "_mm512_maskz_min_ps" 23465 [M16; R64; R64] 64;
  toreg "_mm_mask_min_sd" 23485 [R16; M8; R16; R16] 16;
  toreg "_mm_maskz_min_sd" 23506 [M8; R16; R16] 16;
  toreg "_mm_mask_min_ss" 23526 [R16; M8; R16; R16] 16;
  toreg "_mm_maskz_min_ss" 23547 [M8; R16; R16] 16;
  toreg "_mm512_scalef_pd" 23567 [R64; R64] 64;
  toreg "_mm512_mask_scalef_pd" 23586 [R64; M8; R64; R64] 64;
  toreg "_mm512_maskz_scalef_pd" 23607 [M8; R64; R64] 64;
  toreg "_mm512_scalef_ps" 23627 [R64; R64] 64;
  toreg "_mm512_mask_scalef_ps" 23646 [R64; M16; R64; R64] 64;
  toreg "_mm512_maskz_scalef_ps" 23667 [M16; R64; R64] 64;
  toreg "_mm_scalef_sd" 23687 [R16; R16] 16;
  toreg "_mm_scalef_ss" 23706 [R16; R16] 16;
  toreg "_mm512_fmadd_pd" 23725 [R64; R64; R64] 64;
  toreg "_mm512_mask_fmadd_pd" 23745 [R64; M8; R64; R64] 64;
  toreg "_mm512_mask3_fmadd_pd" 23766 [R64; R64; R64; M8] 64;
  toreg "_mm512_maskz_fmadd_pd" 23787 [M8; R64; R64; R64] 64;
  toreg "_mm512_fmadd_ps" 23808 [R64; R64; R64] 64;
  toreg "_mm512_mask_fmadd_ps" 23828 [R64; M16; R64; R64] 64;
  toreg "_mm512_mask3_fmadd_ps" 23849 [R64; R64; R64; M16] 64;
  toreg "_mm512_maskz_fmadd_ps" 23870 [M16; R64; R64; R64] 64;
  toreg "_mm512_fmsub_pd" 23891 [R64; R64; R64] 64;
  toreg "_mm512_mask_fmsub_pd" 23911 [R64; M8; R64; R64] 64;
  toreg "_mm512_mask3_fmsub_pd" 23932 [R64; R64; R64; M8] 64;
  toreg "_mm512_maskz_fmsub_pd" 23953 [M8; R64; R64; R64] 64;
  toreg "_mm512_fmsub_ps" 23974 [R64; R64; R64] 64;
  toreg "_mm512_mask_fmsub_ps" 23994 [R64; M16; R64; R64] 64;
  toreg "_mm512_mask3_fmsub_ps" 24015 [R64; R64; R64; M16] 64;
  toreg "_mm512_maskz_fmsub_ps" 24036 [M16; R64; R64; R64] 64;
  toreg "_mm512_fmaddsub_pd" 24057 [R64; R64; R64] 64;
  toreg "_mm512_mask_fmaddsub_pd" 24077 [R64; M8; R64; R64] 64;
  toreg "_mm512_mask3_fmaddsub_pd" 24098 [R64; R64; R64; M8] 64;
  toreg "_mm512_maskz_fmaddsub_pd" 24119 [M8; R64; R64; R64] 64;
  toreg "_mm512_fmaddsub_ps" 24140 [R64; R64; R64] 64;
  toreg "_mm512_mask_fmaddsub_ps" 24160 [R64; M16; R64; R64] 64;
  toreg "_mm512_mask3_fmaddsub_ps" 24181 [R64; R64; R64; M16] 64;
  toreg "_mm512_maskz_fmaddsub_ps" 24202 [M16; R64; R64; R64] 64;
  toreg "_mm512_fmsubadd_pd" 24223 [R64; R64; R64] 64;
  toreg "_mm512_mask_fmsubadd_pd" 24243 [R64; M8; R64; R64] 64;
  toreg "_mm512_mask3_fmsubadd_pd" 24264 [R64; R64; R64; M8] 64;
  toreg "_mm512_maskz_fmsubadd_pd" 24285 [M8; R64; R64; R64] 64;
  toreg "_mm512_fmsubadd_ps" 24306 [R64; R64; R64] 64;
  toreg "_mm512_mask_fmsubadd_ps" 24326 [R64; M16; R64; R64] 64;
  toreg "_mm512_mask3_fmsubadd_ps" 24347 [R64; R64; R64; M16] 64;
  toreg "_mm512_maskz_fmsubadd_ps" 24368 [M16; R64; R64; R64] 64;
  toreg "_mm512_fnmadd_pd" 24389 [R64; R64; R64] 64;
  toreg "_mm512_mask_fnmadd_pd" 24409 [R64; M8; R64; R64] 64;
  toreg "_mm512_mask3_fnmadd_pd" 24430 [R64; R64; R64; M8] 64;
  toreg "_mm512_maskz_fnmadd_pd" 24451 [M8; R64; R64; R64] 64;
  toreg "_mm512_fnmadd_ps" 24472 [R64; R64; R64] 64;
  toreg "_mm512_mask_fnmadd_ps" 24492 [R64; M16; R64; R64] 64;
  toreg "_mm512_mask3_fnmadd_ps" 24513 [R64; R64; R64; M16] 64;
  toreg "_mm512_maskz_fnmadd_ps" 24534 [M16; R64; R64; R64] 64;
  toreg "_mm512_fnmsub_pd" 24555 [R64; R64; R64] 64;
  toreg "_mm512_mask_fnmsub_pd" 24575 [R64; M8; R64; R64] 64;
  toreg "_mm512_mask3_fnmsub_pd" 24596 [R64; R64; R64; M8] 64;
  toreg "_mm512_maskz_fnmsub_pd" 24617 [M8; R64; R64; R64] 64;
  toreg "_mm512_fnmsub_ps" 24638 [R64; R64; R64] 64;
  toreg "_mm512_mask_fnmsub_ps" 24658 [R64; M16; R64; R64] 64;
  toreg "_mm512_mask3_fnmsub_ps" 24679 [R64; R64; R64; M16] 64;
  toreg "_mm512_maskz_fnmsub_ps" 24700 [M16; R64; R64; R64] 64;
  toreg "_mm512_cvttpd_epi32" 24721 [R64] 32;
  toreg "_mm512_mask_cvttpd_epi32" 24739 [R32; M8; R64] 32;
  toreg "_mm512_maskz_cvttpd_epi32" 24759 [M8; R64] 32;
  toreg "_mm512_cvttpd_epu32" 24778 [R64] 32;
  toreg "_mm512_mask_cvttpd_epu32" 24796 [R32; M8; R64] 32;
  toreg "_mm512_maskz_cvttpd_epu32" 24816 [M8; R64] 32;
  toreg "_mm512_cvtpd_epi32" 24835 [R64] 32;
  toreg "_mm512_mask_cvtpd_epi32" 24853 [R32; M8; R64] 32;
  toreg "_mm512_maskz_cvtpd_epi32" 24873 [M8; R64] 32;
  toreg "_mm512_cvtpd_epu32" 24892 [R64] 32;
  toreg "_mm512_mask_cvtpd_epu32" 24910 [R32; M8; R64] 32;
  toreg "_mm512_maskz_cvtpd_epu32" 24930 [M8; R64] 32;
  toreg "_mm512_cvttps_epi32" 24949 [R64] 64;
  toreg "_mm512_mask_cvttps_epi32" 24967 [R64; M16; R64] 64;
  toreg "_mm512_maskz_cvttps_epi32" 24987 [M16; R64] 64;
  toreg "_mm512_cvttps_epu32" 25006 [R64] 64;
  toreg "_mm512_mask_cvttps_epu32" 25024 [R64; M16; R64] 64;
  toreg "_mm512_maskz_cvttps_epu32" 25044 [M16; R64] 64;
  toreg "_mm512_cvtps_epi32" 25063 [R64] 64;
  toreg "_mm512_mask_cvtps_epi32" 25081 [R64; M16; R64] 64;
  toreg "_mm512_maskz_cvtps_epi32" 25101 [M16; R64] 64;
  toreg "_mm512_cvtps_epu32" 25120 [R64] 64;
  toreg "_mm512_mask_cvtps_epu32" 25138 [R64; M16; R64] 64;
  toreg "_mm512_maskz_cvtps_epu32" 25158 [M16; R64] 64;
  toreg "_mm512_cvtsd_f64" 25177 [R64] 8;
  toreg "_mm512_cvtss_f32" 25195 [R64] 4;
  toreg "_mm_cvtu64_ss" 25213 [R16; KUll] 16;
  toreg "_mm_cvtu64_sd" 25232 [R16; KUll] 16;
  toreg "_mm_cvtu32_ss" 25251 [R16; KUint] 16;
  toreg "_mm512_cvtepi32_ps" 25270 [R64] 64;
  toreg "_mm512_mask_cvtepi32_ps" 25288 [R64; M16; R64] 64;
  toreg "_mm512_maskz_cvtepi32_ps" 25308 [M16; R64] 64;
  toreg "_mm512_cvtepu32_ps" 25327 [R64] 64;
  toreg "_mm512_mask_cvtepu32_ps" 25345 [R64; M16; R64] 64;
  toreg "_mm512_maskz_cvtepu32_ps" 25365 [M16; R64] 64;
  unimpl "_mm512_fixupimm_pd" 25384;
  unimpl "_mm512_mask_fixupimm_pd" 25394;
  unimpl "_mm512_maskz_fixupimm_pd" 25404;
  unimpl "_mm512_fixupimm_ps" 25414;
  unimpl "_mm512_mask_fixupimm_ps" 25424;
  unimpl "_mm512_maskz_fixupimm_ps" 25434;
  unimpl "_mm_fixupimm_sd" 25444;
  unimpl "_mm_mask_fixupimm_sd" 25454;
  unimpl "_mm_maskz_fixupimm_sd" 25464;
  unimpl "_mm_fixupimm_ss" 25474;
  unimpl "_mm_mask_fixupimm_ss" 25484;
  unimpl "_mm_maskz_fixupimm_ss" 25494;
  toreg "_mm_cvtss_u64" 25504 [R16] 8;
  toreg "_mm_cvttss_u64" 25522 [R16] 8;
  toreg "_mm_cvttss_i64" 25540 [R16] 8;
  toreg "_mm512_cvtsi512_si32" 25558 [R64] 4;
  toreg "_mm_cvtss_u32" 25576 [R16] 4;
  toreg "_mm_cvttss_u32" 25594 [R16] 4;
  toreg "_mm_cvttss_i32" 25612 [R16] 4;
  toreg "_mm_cvtsd_i32" 25630 [R16] 4;
  toreg "_mm_cvtss_i32" 25648 [R16] 4;
  unimpl "_mm_cvti32_sd" 25666;
  unimpl "_mm_cvti32_ss" 25676;
  toreg "_mm_cvtsd_u64" 25686 [R16] 8;
  toreg "_mm_cvttsd_u64" 25704 [R16] 8;
  toreg "_mm_cvttsd_i64" 25722 [R16] 8;
  toreg "_mm_cvtsd_i64" 25740 [R16] 8;
  toreg "_mm_cvtss_i64" 25758 [R16] 8;
  toreg "_mm_cvti64_sd" 25776 [R16; KLong] 16;
  toreg "_mm_cvti64_ss" 25795 [R16; KLong] 16;
  toreg "_mm_cvtsd_u32" 25814 [R16] 4;
  toreg "_mm_cvttsd_u32" 25832 [R16] 4;
  toreg "_mm_cvttsd_i32" 25850 [R16] 4;
  toreg "_mm512_cvtps_pd" 25868 [R32] 64;
  toreg "_mm512_mask_cvtps_pd" 25886 [R64; M8; R32] 64;
  toreg "_mm512_maskz_cvtps_pd" 25906 [M8; R32] 64;
  toreg "_mm512_cvtph_ps" 25925 [R32] 64;
  toreg "_mm512_mask_cvtph_ps" 25943 [R64; M16; R32] 64;
  toreg "_mm512_maskz_cvtph_ps" 25963 [M16; R32] 64;
  toreg "_mm512_cvtpd_ps" 25982 [R64] 32;
  toreg "_mm512_mask_cvtpd_ps" 26000 [R32; M8; R64] 32;
  toreg "_mm512_maskz_cvtpd_ps" 26020 [M8; R64] 32;
  toreg "_mm512_getexp_ps" 26039 [R64] 64;
  toreg "_mm512_mask_getexp_ps" 26057 [R64; M16; R64] 64;
  toreg "_mm512_maskz_getexp_ps" 26077 [M16; R64] 64;
  toreg "_mm512_getexp_pd" 26096 [R64] 64;
  toreg "_mm512_mask_getexp_pd" 26114 [R64; M8; R64] 64;
  toreg "_mm512_maskz_getexp_pd" 26134 [M8; R64] 64;
  toreg "_mm_getexp_ss" 26153 [R16; R16] 16;
  toreg "_mm_mask_getexp_ss" 26172 [R16; M8; R16; R16] 16;
  toreg "_mm_maskz_getexp_ss" 26193 [M8; R16; R16] 16;
  toreg "_mm_getexp_sd" 26213 [R16; R16] 16;
  toreg "_mm_mask_getexp_sd" 26232 [R16; M8; R16; R16] 16;
  toreg "_mm_maskz_getexp_sd" 26253 [M8; R16; R16] 16;
  unimpl "_mm512_getmant_pd" 26273;
  unimpl "_mm512_mask_getmant_pd" 26283;
  unimpl "_mm512_maskz_getmant_pd" 26293;
  unimpl "_mm512_getmant_ps" 26303;
  unimpl "_mm512_mask_getmant_ps" 26313;
  unimpl "_mm512_maskz_getmant_ps" 26323;
  unimpl "_mm_getmant_sd" 26333;
  unimpl "_mm_mask_getmant_sd" 26343;
  unimpl "_mm_maskz_getmant_sd" 26353;
  unimpl "_mm_getmant_ss" 26363;
  unimpl "_mm_mask_getmant_ss" 26373;
  unimpl "_mm_maskz_getmant_ss" 26383;
  unimpl "_mm512_roundscale_ps" 26393;
  unimpl "_mm512_mask_roundscale_ps" 26403;
  unimpl "_mm512_maskz_roundscale_ps" 26413;
  unimpl "_mm512_roundscale_pd" 26423;
  unimpl "_mm512_mask_roundscale_pd" 26433;
  unimpl "_mm512_maskz_roundscale_pd" 26443;
  unimpl "_mm_roundscale_ss" 26453;
  unimpl "_mm_mask_roundscale_ss" 26463;
  unimpl "_mm_maskz_roundscale_ss" 26473;
  unimpl "_mm_roundscale_sd" 26483;
  unimpl "_mm_mask_roundscale_sd" 26493;
  unimpl "_mm_maskz_roundscale_sd" 26503;
  unimpl "_mm512_cmp_pd_mask" 26513;
  unimpl "_mm512_cmp_ps_mask" 26523;
  unimpl "_mm512_mask_cmp_ps_mask" 26533;
  unimpl "_mm512_mask_cmp_pd_mask" 26543;
  unimpl "_mm_cmp_sd_mask" 26553;
  unimpl "_mm_mask_cmp_sd_mask" 26563;
  unimpl "_mm_cmp_ss_mask" 26573;
  unimpl "_mm_mask_cmp_ss_mask" 26583;
  toreg "_mm512_cmpeq_pd_mask" 26593 [R64; R64] 1;
  toreg "_mm512_mask_cmpeq_pd_mask" 26612 [M8; R64; R64] 1;
  toreg "_mm512_cmplt_pd_mask" 26632 [R64; R64] 1;
  toreg "_mm512_mask_cmplt_pd_mask" 26651 [M8; R64; R64] 1;
  toreg "_mm512_cmple_pd_mask" 26671 [R64; R64] 1;
  toreg "_mm512_mask_cmple_pd_mask" 26690 [M8; R64; R64] 1;
  toreg "_mm512_cmpunord_pd_mask" 26710 [R64; R64] 1;
  toreg "_mm512_mask_cmpunord_pd_mask" 26729 [M8; R64; R64] 1;
  toreg "_mm512_cmpneq_pd_mask" 26749 [R64; R64] 1;
  toreg "_mm512_mask_cmpneq_pd_mask" 26768 [M8; R64; R64] 1;
  toreg "_mm512_cmpnlt_pd_mask" 26788 [R64; R64] 1;
  toreg "_mm512_mask_cmpnlt_pd_mask" 26807 [M8; R64; R64] 1;
  toreg "_mm512_cmpnle_pd_mask" 26827 [R64; R64] 1;
  toreg "_mm512_mask_cmpnle_pd_mask" 26846 [M8; R64; R64] 1;
  toreg "_mm512_cmpord_pd_mask" 26866 [R64; R64] 1;
  toreg "_mm512_mask_cmpord_pd_mask" 26885 [M8; R64; R64] 1;
  toreg "_mm512_cmpeq_ps_mask" 26905 [R64; R64] 2;
  toreg "_mm512_mask_cmpeq_ps_mask" 26924 [M16; R64; R64] 2;
  toreg "_mm512_cmplt_ps_mask" 26944 [R64; R64] 2;
  toreg "_mm512_mask_cmplt_ps_mask" 26963 [M16; R64; R64] 2;
  toreg "_mm512_cmple_ps_mask" 26983 [R64; R64] 2;
  toreg "_mm512_mask_cmple_ps_mask" 27002 [M16; R64; R64] 2;
  toreg "_mm512_cmpunord_ps_mask" 27022 [R64; R64] 2;
  toreg "_mm512_mask_cmpunord_ps_mask" 27041 [M16; R64; R64] 2;
  toreg "_mm512_cmpneq_ps_mask" 27061 [R64; R64] 2;
  toreg "_mm512_mask_cmpneq_ps_mask" 27080 [M16; R64; R64] 2;
  toreg "_mm512_cmpnlt_ps_mask" 27100 [R64; R64] 2;
  toreg "_mm512_mask_cmpnlt_ps_mask" 27119 [M16; R64; R64] 2;
  toreg "_mm512_cmpnle_ps_mask" 27139 [R64; R64] 2;
  toreg "_mm512_mask_cmpnle_ps_mask" 27158 [M16; R64; R64] 2;
  toreg "_mm512_cmpord_ps_mask" 27178 [R64; R64] 2;
  toreg "_mm512_mask_cmpord_ps_mask" 27197 [M16; R64; R64] 2;
  toreg "_mm512_kmov" 27217 [M16] 2;
  toreg "_mm512_castpd_ps" 27235 [R64] 64;
  toreg "_mm512_castpd_si512" 27253 [R64] 64;
  toreg "_mm512_castps_pd" 27271 [R64] 64;
  toreg "_mm512_castps_si512" 27289 [R64] 64;
  toreg "_mm512_castsi512_ps" 27307 [R64] 64;
  toreg "_mm512_castsi512_pd" 27325 [R64] 64;
  toreg "_mm512_castpd512_pd128" 27343 [R64] 16;
  toreg "_mm512_castps512_ps128" 27361 [R64] 16;
  toreg "_mm512_castsi512_si128" 27379 [R64] 16;
  toreg "_mm512_castpd512_pd256" 27397 [R64] 32;
  toreg "_mm512_castps512_ps256" 27415 [R64] 32;
  toreg "_mm512_castsi512_si256" 27433 [R64] 32;
  toreg "_mm512_castpd128_pd512" 27451 [R16] 64;
  toreg "_mm512_castps128_ps512" 27469 [R16] 64;
  toreg "_mm512_castsi128_si512" 27487 [R16] 64;
  toreg "_mm512_castpd256_pd512" 27505 [R32] 64;
  toreg "_mm512_castps256_ps512" 27523 [R32] 64;
  toreg "_mm512_castsi256_si512" 27541 [R32] 64;
  toreg "_mm512_zextpd128_pd512" 27559 [R16] 64;
  toreg "_mm512_zextps128_ps512" 27577 [R16] 64;
  toreg "_mm512_zextsi128_si512" 27595 [R16] 64;
  toreg "_mm512_zextpd256_pd512" 27613 [R32] 64;
  toreg "_mm512_zextps256_ps512" 27631 [R32] 64;
  toreg "_mm512_zextsi256_si512" 27649 [R32] 64;
  toreg "_mm512_cmpeq_epu32_mask" 27667 [R64; R64] 2;
  toreg "_mm512_mask_cmpeq_epu32_mask" 27686 [M16; R64; R64] 2;
  toreg "_mm512_mask_cmpeq_epu64_mask" 27706 [M8; R64; R64] 1;
  toreg "_mm512_cmpeq_epu64_mask" 27726 [R64; R64] 1;
  toreg "_mm512_cmpgt_epu32_mask" 27745 [R64; R64] 2;
  toreg "_mm512_mask_cmpgt_epu32_mask" 27764 [M16; R64; R64] 2;
  toreg "_mm512_mask_cmpgt_epu64_mask" 27784 [M8; R64; R64] 1;
  toreg "_mm512_cmpgt_epu64_mask" 27804 [R64; R64] 1;
  toreg "_mm512_reduce_add_epi32" 27823 [R64] 4;
  toreg "_mm512_reduce_mul_epi32" 27841 [R64] 4;
  toreg "_mm512_reduce_and_epi32" 27859 [R64] 4;
  toreg "_mm512_reduce_or_epi32" 27877 [R64] 4;
  toreg "_mm512_mask_reduce_add_epi32" 27895 [M16; R64] 4;
  toreg "_mm512_mask_reduce_mul_epi32" 27914 [M16; R64] 4;
  toreg "_mm512_mask_reduce_and_epi32" 27933 [M16; R64] 4;
  toreg "_mm512_mask_reduce_or_epi32" 27952 [M16; R64] 4;
  toreg "_mm512_reduce_min_epi32" 27971 [R64] 4;
  toreg "_mm512_reduce_max_epi32" 27989 [R64] 4;
  toreg "_mm512_reduce_min_epu32" 28007 [R64] 4;
  toreg "_mm512_reduce_max_epu32" 28025 [R64] 4;
  toreg "_mm512_mask_reduce_min_epi32" 28043 [M16; R64] 4;
  toreg "_mm512_mask_reduce_max_epi32" 28062 [M16; R64] 4;
  toreg "_mm512_mask_reduce_min_epu32" 28081 [M16; R64] 4;
  toreg "_mm512_mask_reduce_max_epu32" 28100 [M16; R64] 4;
  toreg "_mm512_reduce_add_ps" 28119 [R64] 4;
  toreg "_mm512_reduce_mul_ps" 28137 [R64] 4;
  toreg "_mm512_mask_reduce_add_ps" 28155 [M16; R64] 4;
  toreg "_mm512_mask_reduce_mul_ps" 28174 [M16; R64] 4;
  toreg "_mm512_reduce_min_ps" 28193 [R64] 4;
  toreg "_mm512_reduce_max_ps" 28211 [R64] 4;
  toreg "_mm512_mask_reduce_min_ps" 28229 [M16; R64] 4;
  toreg "_mm512_mask_reduce_max_ps" 28248 [M16; R64] 4;
  toreg "_mm512_reduce_add_epi64" 28267 [R64] 8;
  toreg "_mm512_reduce_mul_epi64" 28285 [R64] 8;
  toreg "_mm512_reduce_and_epi64" 28303 [R64] 8;
  toreg "_mm512_reduce_or_epi64" 28321 [R64] 8;
  toreg "_mm512_mask_reduce_add_epi64" 28339 [M8; R64] 8;
  toreg "_mm512_mask_reduce_mul_epi64" 28358 [M8; R64] 8;
  toreg "_mm512_mask_reduce_and_epi64" 28377 [M8; R64] 8;
  toreg "_mm512_mask_reduce_or_epi64" 28396 [M8; R64] 8;
  toreg "_mm512_reduce_min_epi64" 28415 [R64] 8;
  toreg "_mm512_reduce_max_epi64" 28433 [R64] 8;
  toreg "_mm512_mask_reduce_min_epi64" 28451 [M8; R64] 8;
  toreg "_mm512_mask_reduce_max_epi64" 28470 [M8; R64] 8;
  toreg "_mm512_reduce_min_epu64" 28489 [R64] 8;
  toreg "_mm512_reduce_max_epu64" 28507 [R64] 8;
  toreg "_mm512_mask_reduce_min_epu64" 28525 [M8; R64] 8;
  toreg "_mm512_mask_reduce_max_epu64" 28544 [M8; R64] 8;
  toreg "_mm512_reduce_add_pd" 28563 [R64] 8;
  toreg "_mm512_reduce_mul_pd" 28581 [R64] 8;
  toreg "_mm512_mask_reduce_add_pd" 28599 [M8; R64] 8;
  toreg "_mm512_mask_reduce_mul_pd" 28618 [M8; R64] 8;
  toreg "_mm512_reduce_min_pd" 28637 [R64] 8;
  toreg "_mm512_reduce_max_pd" 28655 [R64] 8;
  toreg "_mm512_mask_reduce_min_pd" 28673 [M8; R64] 8
].

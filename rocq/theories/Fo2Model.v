(** Oxygen buffers: getlog10fo2 and its derivatives, sources/gibbs.c:212-365.
    [double] is modelled by R; T > 0 is assumed by every theorem (division).
    [d] is silminState->fo2Delta.  Buffer codes: includes/silmin.h (the FO2_xxx macros).
    The tables of branches were transcribed mechanically from the source. *)
From Coq Require Import Reals ZArith.
Local Open Scope R_scope.

Definition SQUARE (x : R) := x * x.
Definition CUBE (x : R) := x * x * x.
Definition pLim (p : R) : R := if Rlt_dec p 67201.0 then p else 67201.0.

(** getlog10fo2COH, gibbs.c:213-234, one definition per mask *)
Definition coh (t p : R) : R :=
  (-22324.0 + 189.0*pLim p/1000.0 - 1.41*pLim p*pLim p/1000000.0)/t + 4.62
  + (if Rlt_dec 67201.0 p then 608.966*(p/10000.0)/t - 608.966*(67201.0/10000.0)/t else 0).
Definition coh_dt (t p : R) : R :=
  - (-22324.0 + 189.0*pLim p/1000.0 - 1.41*pLim p*pLim p/1000000.0)/SQUARE t
  + (if Rlt_dec 67201.0 p then -608.966*(p/10000.0)/SQUARE t + 608.966*(67201.0/10000.0)/SQUARE t else 0).
Definition coh_dp (t p : R) : R :=
  (189.0/1000.0 - 2.0*1.41*pLim p/1000000.0)/t
  + (if Rlt_dec 67201.0 p then 608.966*(1.0/10000.0)/t else 0).
Definition coh_dt2 (t p : R) : R :=
  2.0*(-22324.0 + 189.0*pLim p/1000.0 - 1.41*pLim p*pLim p/1000000.0)/CUBE t
  + (if Rlt_dec 67201.0 p then 2.0*608.966*(p/10000.0)/CUBE t - 2.0*608.966*(67201.0/10000.0)/CUBE t else 0).
Definition coh_dp2 (t p : R) : R := (-2.0*1.41/1000000.0)/t.

(** getlog10fo2, gibbs.c:244-267 *)
Definition log10fo2 (d t p : R) (buffer : Z) : R :=
  match buffer with
  | 1%Z => -23847.6/t + 13.480 + d   (* HM *)
  | 2%Z => -24930.0/t + 9.360 + d   (* NNO *)
  | 3%Z => -24441.9/t + 0.110*(p-1.0)/t + 8.290 + d   (* QFM *)
  | 4%Z => coh t p + d   (* COH *)
  | 5%Z => -26834.7/t + 6.471 + d   (* IW *)
  | 6%Z => -24441.9/t + 0.110*(p-1.0)/t + 8.290 + 3.0   (* QFM_P3 *)
  | 7%Z => -24441.9/t + 0.110*(p-1.0)/t + 8.290 + 2.0   (* QFM_P2 *)
  | 8%Z => -24441.9/t + 0.110*(p-1.0)/t + 8.290 + 1.0   (* QFM_P1 *)
  | 9%Z => -24441.9/t + 0.110*(p-1.0)/t + 8.290 - 1.0   (* QFM_M1 *)
  | 10%Z => -24441.9/t + 0.110*(p-1.0)/t + 8.290 - 2.0   (* QFM_M2 *)
  | 11%Z => -24441.9/t + 0.110*(p-1.0)/t + 8.290 - 3.0   (* QFM_M3 *)
  | 12%Z => -24441.9/t + 0.110*(p-1.0)/t + 8.290 - 4.0   (* QFM_M4 *)
  | 13%Z => -24441.9/t + 0.110*(p-1.0)/t + 8.290 - 5.0   (* QFM_M5 *)
  | 14%Z => -24441.9/t + 0.110*(p-1.0)/t + 8.290 - 6.0   (* QFM_M6 *)
  | 15%Z => -24441.9/t + 0.110*(p-1.0)/t + 8.290 - 7.0   (* QFM_M7 *)
  | 16%Z => -24441.9/t + 0.110*(p-1.0)/t + 8.290 - 8.0   (* QFM_M8 *)
  | 17%Z => -24441.9/t + 0.110*(p-1.0)/t + 8.290 - 9.0   (* QFM_M9 *)
  | 18%Z => -24441.9/t + 0.110*(p-1.0)/t + 8.290 + 0.5   (* QFM_P0_5 *)
  | 19%Z => -24441.9/t + 0.110*(p-1.0)/t + 8.290 + 1.5   (* QFM_P1_5 *)
  | _ => 0.0
  end.

(** getdlog10fo2dt, gibbs.c:269-291 *)
Definition dlog10fo2dt (t p : R) (buffer : Z) : R :=
  match buffer with
  | 1%Z => 23847.6/SQUARE t   (* HM *)
  | 2%Z => 24930.0/SQUARE t   (* NNO *)
  | 3%Z => 24441.9/SQUARE t - 0.110*(p-1.0)/SQUARE t   (* QFM *)
  | 4%Z => coh_dt t p   (* COH *)
  | 5%Z => 26834.7/SQUARE t   (* IW *)
  | 6%Z => 24441.9/SQUARE t - 0.110*(p-1.0)/SQUARE t   (* QFM_P3 *)
  | 7%Z => 24441.9/SQUARE t - 0.110*(p-1.0)/SQUARE t   (* QFM_P2 *)
  | 8%Z => 24441.9/SQUARE t - 0.110*(p-1.0)/SQUARE t   (* QFM_P1 *)
  | 9%Z => 24441.9/SQUARE t - 0.110*(p-1.0)/SQUARE t   (* QFM_M1 *)
  | 10%Z => 24441.9/SQUARE t - 0.110*(p-1.0)/SQUARE t   (* QFM_M2 *)
  | 11%Z => 24441.9/SQUARE t - 0.110*(p-1.0)/SQUARE t   (* QFM_M3 *)
  | 12%Z => 24441.9/SQUARE t - 0.110*(p-1.0)/SQUARE t   (* QFM_M4 *)
  | 13%Z => 24441.9/SQUARE t - 0.110*(p-1.0)/SQUARE t   (* QFM_M5 *)
  | 14%Z => 24441.9/SQUARE t - 0.110*(p-1.0)/SQUARE t   (* QFM_M6 *)
  | 15%Z => 24441.9/SQUARE t - 0.110*(p-1.0)/SQUARE t   (* QFM_M7 *)
  | 16%Z => 24441.9/SQUARE t - 0.110*(p-1.0)/SQUARE t   (* QFM_M8 *)
  | 17%Z => 24441.9/SQUARE t - 0.110*(p-1.0)/SQUARE t   (* QFM_M9 *)
  | 18%Z => 24441.9/SQUARE t - 0.110*(p-1.0)/SQUARE t   (* QFM_P0_5 *)
  | 19%Z => 24441.9/SQUARE t - 0.110*(p-1.0)/SQUARE t   (* QFM_P1_5 *)
  | _ => 0.0
  end.

(** getdlog10fo2dp, gibbs.c:293-315 *)
Definition dlog10fo2dp (t p : R) (buffer : Z) : R :=
  match buffer with
  | 1%Z => 0.0   (* HM *)
  | 2%Z => 0.0   (* NNO *)
  | 3%Z => 0.110/t   (* QFM *)
  | 4%Z => coh_dp t p   (* COH *)
  | 5%Z => 0.0   (* IW *)
  | 6%Z => 0.110/t   (* QFM_P3 *)
  | 7%Z => 0.110/t   (* QFM_P2 *)
  | 8%Z => 0.110/t   (* QFM_P1 *)
  | 9%Z => 0.110/t   (* QFM_M1 *)
  | 10%Z => 0.110/t   (* QFM_M2 *)
  | 11%Z => 0.110/t   (* QFM_M3 *)
  | 12%Z => 0.110/t   (* QFM_M4 *)
  | 13%Z => 0.110/t   (* QFM_M5 *)
  | 14%Z => 0.110/t   (* QFM_M6 *)
  | 15%Z => 0.110/t   (* QFM_M7 *)
  | 16%Z => 0.110/t   (* QFM_M8 *)
  | 17%Z => 0.110/t   (* QFM_M9 *)
  | 18%Z => 0.110/t   (* QFM_P0_5 *)
  | 19%Z => 0.110/t   (* QFM_P1_5 *)
  | _ => 0.110/t
  end.

(** getd2log10fo2dt2, gibbs.c:317-339 *)
Definition d2log10fo2dt2 (t p : R) (buffer : Z) : R :=
  match buffer with
  | 1%Z => -2.0*23847.6/CUBE t   (* HM *)
  | 2%Z => -2.0*24930.0/CUBE t   (* NNO *)
  | 3%Z => -2.0*24441.9/CUBE t + 2.0*0.110*(p-1.0)/CUBE t   (* QFM *)
  | 4%Z => coh_dt2 t p   (* COH *)
  | 5%Z => -2.0*26834.7/CUBE t   (* IW *)
  | 6%Z => -2.0*24441.9/CUBE t + 2.0*0.110*(p-1.0)/CUBE t   (* QFM_P3 *)
  | 7%Z => -2.0*24441.9/CUBE t + 2.0*0.110*(p-1.0)/CUBE t   (* QFM_P2 *)
  | 8%Z => -2.0*24441.9/CUBE t + 2.0*0.110*(p-1.0)/CUBE t   (* QFM_P1 *)
  | 9%Z => -2.0*24441.9/CUBE t + 2.0*0.110*(p-1.0)/CUBE t   (* QFM_M1 *)
  | 10%Z => -2.0*24441.9/CUBE t + 2.0*0.110*(p-1.0)/CUBE t   (* QFM_M2 *)
  | 11%Z => -2.0*24441.9/CUBE t + 2.0*0.110*(p-1.0)/CUBE t   (* QFM_M3 *)
  | 12%Z => -2.0*24441.9/CUBE t + 2.0*0.110*(p-1.0)/CUBE t   (* QFM_M4 *)
  | 13%Z => -2.0*24441.9/CUBE t + 2.0*0.110*(p-1.0)/CUBE t   (* QFM_M5 *)
  | 14%Z => -2.0*24441.9/CUBE t + 2.0*0.110*(p-1.0)/CUBE t   (* QFM_M6 *)
  | 15%Z => -2.0*24441.9/CUBE t + 2.0*0.110*(p-1.0)/CUBE t   (* QFM_M7 *)
  | 16%Z => -2.0*24441.9/CUBE t + 2.0*0.110*(p-1.0)/CUBE t   (* QFM_M8 *)
  | 17%Z => -2.0*24441.9/CUBE t + 2.0*0.110*(p-1.0)/CUBE t   (* QFM_M9 *)
  | 18%Z => -2.0*24441.9/CUBE t + 2.0*0.110*(p-1.0)/CUBE t   (* QFM_P0_5 *)
  | 19%Z => -2.0*24441.9/CUBE t + 2.0*0.110*(p-1.0)/CUBE t   (* QFM_P1_5 *)
  | _ => 0.0
  end.

(** getd2log10fo2dp2, gibbs.c:341-363 *)
Definition d2log10fo2dp2 (t p : R) (buffer : Z) : R :=
  match buffer with
  | 1%Z => 0.0   (* HM *)
  | 2%Z => 0.0   (* NNO *)
  | 3%Z => 0.0   (* QFM *)
  | 4%Z => coh_dp2 t p   (* COH *)
  | 5%Z => 0.0   (* IW *)
  | 6%Z => 0.0   (* QFM_P3 *)
  | 7%Z => 0.0   (* QFM_P2 *)
  | 8%Z => 0.0   (* QFM_P1 *)
  | 9%Z => 0.0   (* QFM_M1 *)
  | 10%Z => 0.0   (* QFM_M2 *)
  | 11%Z => 0.0   (* QFM_M3 *)
  | 12%Z => 0.0   (* QFM_M4 *)
  | 13%Z => 0.0   (* QFM_M5 *)
  | 14%Z => 0.0   (* QFM_M6 *)
  | 15%Z => 0.0   (* QFM_M7 *)
  | 16%Z => 0.0   (* QFM_M8 *)
  | 17%Z => 0.0   (* QFM_M9 *)
  | 18%Z => 0.0   (* QFM_P0_5 *)
  | 19%Z => 0.0   (* QFM_P1_5 *)
  | _ => 0.0
  end.


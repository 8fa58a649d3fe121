(** An unlucky balance: the settings of the trader program, opened with no base currency and
    10.07 units of quote currency. *)
From Coq Require Import Reals ZArith List.
From Flocq Require Import Core BinarySingleNaN.
From Verif.Model Require Import Outcome Machine Types MachineIEEE.
From Verif.Spec Require Import AccountIEEESpec.
Local Open Scope R_scope.

Section Spec.
  Context {lm : libm} {as_ : bool}.
  Local Notation I := (ieee lm as_).

  (** Fees of half a percent, with no fixed part and no minimum; 0.00001 and 0.01 as units. *)
  Record unlucky (cfg : @account_config I) : Prop := Unlucky {
    ul_base : start_base_balance cfg = f32_of_Z 0;
    ul_quote : start_quote_balance cfg = @flit I 1007 100;
    ul_base_unit : cfg_base_unit cfg = @flit I 1 100000;
    ul_quote_unit : cfg_quote_unit cfg = @flit I 1 100;
    ul_market_fee : market_order_fee_config cfg = @FeeConfig I (@flit I 5 1000) (f32_of_Z 0) (f32_of_Z 0);
    ul_stop_fee : stop_order_fee_config cfg = @FeeConfig I (@flit I 5 1000) (f32_of_Z 0) (f32_of_Z 0);
    ul_limit_fee : limit_order_fee_config cfg = @FeeConfig I (@flit I 5 1000) (f32_of_Z 0) (f32_of_Z 0);
    ul_liquidity : in_range 0 1 (cfg_market_liquidity cfg);
    ul_ratio : in_range 0 1 (cfg_max_volume_ratio cfg)
  }.
End Spec.

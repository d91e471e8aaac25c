(** Specification of flavors that differ in hook_targets.  *)
From Coq Require Import String Ascii Bool Arith Lia List.
From Verif Require Import Base Tokens Method Paths Context Flavor Attrs Syntax RenderSpec AttrSpec SiteSpec ProgSpec SettingSpec.
Import ListNotations.
Open Scope string_scope.
Open Scope list_scope.

(** [f] and [g] differ in hook_targets at most *)
Record same_but_targets (f g : fcore) : Prop := mk_same {
  sb_traits : fl_traits g = fl_traits f;
  sb_method : fl_method g = fl_method f;
  sb_tails : fl_tails g = fl_tails f;
  sb_ignores : fl_ignores g = fl_ignores f;
  sb_results : fl_results g = fl_results f;
  sb_macros : fl_macros g = fl_macros f;
  sb_bindings : fl_bindings g = fl_bindings f }.
Definition on (t : switch) (k : site_kind) : bool := match k with KTry => sw_question t | KReturn => sw_return t | KTail _ => sw_tail t end.


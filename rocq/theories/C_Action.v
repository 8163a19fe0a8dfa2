(** * Property C53, continued: components that are no alarms *)
From Verif Require Import M_Base M_Line M_Tree M_Comp S_Toy P_Action.

(** Without an item named ACTION, or with several, a VALARM is refused with ValueError; if
    the only one is a component, with AttributeError. *)
Theorem C53_action_none : forall X n zs its, (forall it, In it its -> item_name it <> py "ACTION") -> load_alarm X n its zs = Err ValueError.
Proof. exact action_none. Qed.
Print Assumptions C53_action_none.
Theorem C53_action_several : forall X n zs l1 a l2 b l3, item_name a = py "ACTION" -> item_name b = py "ACTION" ->
  load_alarm X n (l1 ++ a :: l2 ++ b :: l3) zs = Err ValueError.
Proof. exact action_two. Qed.
Print Assumptions C53_action_several.
Theorem C53_action_component : forall X n zs pre sub post, (forall it, In it (pre ++ post) -> item_name it <> py "ACTION") ->
  load_alarm X n (pre ++ ICont (py "ACTION") sub :: post) zs = Err AttributeError.
Proof. exact action_component. Qed.
Print Assumptions C53_action_component.
Example C53_example_action : (forall it, In it ([] ++ []) -> item_name it <> py "ACTION") /\
  load_alarm toy (py "VALARM") [ICont (py "ACTION") []] [] = Err AttributeError.
Proof. split; [easy|reflexivity]. Qed.

(** * C38: assignment after construction is validated *)
From Verif Require Import M_Base M_Attr S_Attr P_Attr.
Open Scope Z_scope.

(** An assignment that raises (and a construction that raises) leaves every object as it
    was, whatever happened before and whatever the class hierarchy. *)
Theorem C38_rejected : forall V (w : world V) a e,
  snd (act w a) = Err e -> w_objs (fst (act w a)) = w_objs w.
Proof. exact act_rejected. Qed.
Print Assumptions C38_rejected.

(** Construction runs converters and validators of all attributes. *)
Theorem C38_construct : forall V (c : klass V) vals o,
  construct c vals = Ok o -> i_cls o = c /\ valid_inst o /\ complete_inst o.
Proof. exact construct_valid. Qed.
Print Assumptions C38_construct.

(** After any history over classes that do not get in each other's way, assigning to an
    attribute runs exactly the converter and validator declared for it and stores the
    result in that attribute only. *)
Theorem C38_assign : forall V (K : klass V -> Prop) h i o key v,
  unrelated K -> uses K h ->
  nth_error (w_objs (play start h)) i = Some o ->
  let r := act (play start h) (Assign i key v) in
  match ought (i_cls o) key v with
  | Err e => snd r = Err e /\ w_objs (fst r) = w_objs (play start h)
  | Ok v' =>
      snd r = Ok tt /\
      (forall j, j <> i -> nth_error (w_objs (fst r)) j = nth_error (w_objs (play start h)) j) /\
      exists o', nth_error (w_objs (fst r)) i = Some o' /\ i_cls o' = i_cls o /\
        dict_get key (i_attrs o') = Some v' /\
        forall k2, k2 <> key -> dict_get k2 (i_attrs o') = dict_get k2 (i_attrs o)
  end.
Proof. exact assign_ok. Qed.
Print Assumptions C38_assign.

(** Hence the declared constraints hold for every object at every time. *)
Theorem C38_invariant : forall V (K : klass V -> Prop) h,
  unrelated K -> uses K h ->
  Forall (fun o => K (i_cls o) /\ valid_inst o /\ complete_inst o) (w_objs (play start h)).
Proof. exact (fun V K h U US => proj2 (play_inv V K h U US)). Qed.
Print Assumptions C38_invariant.

(** Without that restriction it is false: the fields of a base class, remembered when an
    instance of the base class is assigned to, are used for every class derived from it.
    From then on an attribute the derived class declares itself takes any value. *)
Theorem C38_shadowed_refuted : forall V (b : klass V) id own vb vc ob oc k0 v0 key v,
  let c := Klass id own (Some b) in
  id <> k_id b -> construct b vb = Ok ob -> construct c vc = Ok oc ->
  (exists k1, declared b k1 <> None) -> declared b key = None ->
  exists o', nth_error (w_objs (play start [New b vb; Assign 0 k0 v0; New c vc; Assign 1 key v])) 1 = Some o' /\
    i_cls o' = c /\ dict_get key (i_attrs o') = Some v.
Proof. exact shadowed. Qed.
Print Assumptions C38_shadowed_refuted.

(** Classes in the shape of the library's: [Component] with [extra_params]
    (component.py:17-31), [Todo] with [percent] in 0..100 (todo.py:22-25), and [Event]. *)
Definition anything : field Z := mk_field Ok (fun _ _ => Ok tt).
Definition in_0_100 : field Z :=
  mk_field Ok (fun _ v => if (0 <=? v) && (v <=? 100) then Ok tt else Err ValueError).
Definition Component_k : klass Z := Klass 1 [(py "extra_params", anything)] None.
Definition Todo_k : klass Z := Klass 2 [(py "percent", in_0_100)] (Some Component_k).
Definition Event_k : klass Z := Klass 3 [(py "summary", anything)] (Some Component_k).
Definition zero : str -> Z := fun _ => 0.

Example C38_shadowed_refuted_ex :
  snd (act (play start [New Todo_k zero]) (Assign 0 (py "percent") 1000)) = Err ValueError /\
  snd (act (play start [New Component_k zero; Assign 0 (py "extra_params") 1; New Todo_k zero])
           (Assign 1 (py "percent") 1000)) = Ok tt /\
  ~ accepted Todo_k (py "percent") 1000.
Proof. split; [reflexivity|]. split; [reflexivity|]. intros [_ H]. discriminate H. Qed.

Definition todo_or_event (c : klass Z) : Prop := c = Todo_k \/ c = Event_k.
Example C38_unrelated_ex : unrelated todo_or_event.
Proof.
  split; [|split].
  - intros c d [-> | ->] [-> | ->] E; try reflexivity; discriminate E.
  - intros c d b [-> | ->] [-> | ->] [-> |[]] E; discriminate E.
  - intros c d [-> | ->] [-> | ->] [H|[]]; discriminate H.
Qed.
Example C38_assign_ex :
  let h := [New Event_k zero; Assign 0 (py "summary") 7; New Todo_k zero; Assign 1 (py "percent") 50] in
  uses todo_or_event h /\
  snd (act (play start h) (Assign 1 (py "percent") 101)) = Err ValueError /\
  snd (act (play start h) (Assign 1 (py "percent") 99)) = Ok tt.
Proof.
  split; [|split; reflexivity]. intros c vals [H|[H|[H|[H|[]]]]]; inversion H; [right|left]; reflexivity.
Qed.

(** * Model of reading into a component that already has contents

    src/ics/component.py:49-55 (Component.populate), src/ics/icalendar.py:51-104
    (Calendar.__init__ with events, todos and creator). The reading itself is
    [populate_instance] of M_Comp. When reading fails python leaves what was read so far in
    the component; here only the error is returned (what is left: M_Fail). *)
From Verif Require Import M_Base M_Line M_Tree M_Comp M_Open.

Section Merge.
Variable X : ext.

(** The calendar before anything is imported (icalendar.py:67-75): [version] has its
    default, [prodid] is [creator] or the default; other keyword arguments are not given.
    The attributes copy the iterables into lists (icalendar.py:27-32). *)
Definition made_calendar (events todos : list entry) (creator : option str) : calendar :=
  let c := new_comp X entry CCalendar in
  mk_comp CCalendar
    (match creator with Some s => dict_set (py "prodid") (AOne (VStr s)) (c_attrs c) | None => c_attrs c end)
    (dict_set (py "todos") todos (dict_set (py "events") events (c_mem c)))
    (c_name c) (c_extra c) (c_params c).
(** [Calendar(imports, events, todos, creator)] (icalendar.py:51-104) *)
Definition calendar_init (i : imports) (events todos : list entry) (creator : option str) : res calendar :=
  let c := made_calendar events todos creator in Calendar (populate_calendar X c) c i.

(** [for container in containers: calendar.populate(container)] (component.py:49-55); every
    call has a context of its own. *)
Fixpoint populate_all (c : calendar) (conts : list (str * list item)) : res calendar :=
  match conts with
  | [] => Ok c
  | (n, its) :: conts' => do c' <- populate_calendar X c n its; populate_all c' conts'
  end.
(** [event.populate(container)], [todo.populate(container)]: new context, no zones. *)
Definition populate_entry (x : entry) (n : str) (its : list item) : res entry :=
  do (x', _) <- populate_instance X alarm (entry_member X) x n its [];
  Ok x'.
(** [Event.from_container], [Todo.from_container] (component.py:36-47) *)
Definition entry_from_container (c : cls) (n : str) (its : list item) : res entry :=
  populate_entry (new_comp X alarm c) n its.
End Merge.

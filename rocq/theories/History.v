(** * History: what a program can do over time with [QueryParams] objects.
    src/api.rs:249-258: [#[derive(Clone, Serialize, Deserialize)]], private [lhs]/[rhs],
    [pub used: bool]. A user holds a growing list of objects and can call
    [generate_query] on one, clone one (a serde round trip is a clone too: C65) and assign the
    public field [used]. *)
From Verif Require Export Api.
Local Open Scope Z_scope.

Inductive action (X : Type) : Type :=
| AQuery (h : nat) (x : X)       (* obj_h.generate_query(x): api.rs:276-294 / 348-364 *)
| AClone (h : nat)               (* push(obj_h.clone()): derive at api.rs:249 *)
| ASetUsed (h : nat) (b : bool). (* obj_h.used = b: pub field, api.rs:257 *)
Arguments AQuery {X} h x. Arguments AClone {X} h. Arguments ASetUsed {X} h b.

(** One action: new objects, and the outcome of a query if it was one. A panic inside
    [generate_query] (caught by the caller) leaves the [&mut self] changes in place.
    Actions on a handle that does not exist do nothing. *)
Definition hist_step {X} (gen : query_params -> X -> query_params * res (list Z))
    (objs : list query_params) (a : action X) : list query_params * list (res (list Z)) :=
  match a with
  | AQuery h x =>
      match nth_error objs h with
      | Some qp => let (qp', r) := gen qp x in (upd objs h qp', [r])
      | None => (objs, [])
      end
  | AClone h =>
      match nth_error objs h with
      | Some qp => (objs ++ [qp], [])
      | None => (objs, [])
      end
  | ASetUsed h b =>
      match nth_error objs h with
      | Some qp => (upd objs h (set_used b qp), [])
      | None => (objs, [])
      end
  end.

Fixpoint hist_run {X} (gen : query_params -> X -> query_params * res (list Z))
    (objs : list query_params) (acts : list (action X))
  : list query_params * list (res (list Z)) :=
  match acts with
  | [] => (objs, [])
  | a :: t => let (objs1, o1) := hist_step gen objs a in
              let (objs2, o2) := hist_run gen objs1 t in (objs2, o1 ++ o2)
  end.

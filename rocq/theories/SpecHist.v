(** * SpecHist: what a user expects of a single-use object over time, told with one flag per
    object held. Independent of how [generate_query] works. *)
From Verif Require Export History.

(** [flags] says for each object held whether it has been spent; [answer x] is what an unspent
    object says to [x]. A query spends the object whatever the answer is; a spent object refuses;
    a clone is as spent as its original; assigning to [used] sets the flag. *)
Fixpoint single_use {X} (answer : X -> res (list Z)) (flags : list bool) (acts : list (action X))
  : list bool * list (res (list Z)) :=
  match acts with
  | [] => (flags, [])
  | AQuery h x :: t =>
      match nth_error flags h with
      | None => single_use answer flags t
      | Some spent =>
          let (f, o) := single_use answer (upd flags h true) t in
          (f, (if spent then Err EParamsReused else answer x) :: o)
      end
  | AClone h :: t =>
      match nth_error flags h with
      | None => single_use answer flags t
      | Some spent => single_use answer (flags ++ [spent]) t
      end
  | ASetUsed h b :: t => single_use answer (upd flags h b) t
  end.

(** * PrelinkOpen: model of undoing prelink, /repo/src/drpm_apply.c lines 623-663 *)
From Verif Require Import Base FileSys.

(** The directory for temporary files: names and contents. *)
Definition tmp_dir : Type := list (list Z * list Z).
Fixpoint tmp_find (t : tmp_dir) (name : list Z) : option (list Z) :=
  match t with
  | [] => None
  | (n, d) :: t => if list_eqb n name then Some d else tmp_find t name
  end.
(** [unlink]: an error is not noticed. *)
Fixpoint tmp_unlink (t : tmp_dir) (name : list Z) : tmp_dir :=
  match t with
  | [] => []
  | (n, d) :: t => if list_eqb n name then t else (n, d) :: tmp_unlink t name
  end.

(** The child process, lines 644-647: [execl] fails, so that it exits with status 1; or prelink ends with some status, and
    [file] is what is then at the place that it was told to write to. *)
Inductive child : Type := NoExec | Ended (status : Z) (file : option (list Z)).

(** What the system answers: to [stat] of /usr/sbin/prelink; to [mkstemp], with the name it has chosen; to [fork]; to
    [open] if the file is there; and what the child does.  Simplified: nobody else changes the directory meanwhile. *)
Record host : Type := mkhost {
  ho_stat : bool; ho_mkstemp : option (list Z); ho_fork : bool; ho_open : bool; ho_child : list Z -> child }.

(** [prelink_open], drpm_apply.c lines 623-663: the contents that can be read from the descriptor it returns, and what is
    left in the directory.  The status that [waitpid] stores is not looked at. *)
Definition prelink_open (h : host) (tmp : tmp_dir) (filename : list Z) : tmp_dir * res (list Z) :=
  if negb (ho_stat h) then (tmp, Err EOther)
  else
    match ho_mkstemp h with
    | None => (tmp, Err EIo)
    | Some template =>
        if negb (ho_fork h) then ((template, []) :: tmp, Err EOther)
        else
          let tmp := match ho_child h filename with
                     | NoExec => (template, []) :: tmp
                     | Ended _ (Some data) => (template, data) :: tmp
                     | Ended _ None => tmp
                     end in
          match tmp_find tmp template with
          | Some data => if ho_open h then (tmp_unlink tmp template, Ok data) else (tmp, Err EIo)
          | None => (tmp, Err EIo)
          end
    end.

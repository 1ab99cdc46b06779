(** Signals that arrive while the tool works on a process: the two loops of /repo in
    which the process is resumed and waited for, with a log of what waitpid reported
    and of the signals passed on by PTRACE_CONT.

    The loops are those of [ScModel] (see [SgProofs.wait_log_result] and
    [SgProofs.attach_log_result]: without the log they are the same functions).  Not
    modelled: signals that arrive while the process is stopped are what the next wait
    reports, as for any traced process. *)
From Coq Require Import ZArith String List Bool.
From Verif Require Import Word Str ScModel.
Import ListNotations.
Open Scope Z_scope.

(** What waitpid reported and what PTRACE_CONT was given; [Resumed None]: the status
    word of a process that exited is passed on as it is (core.c 706-711, where neither
    branch applies). *)
Inductive event := Stopped (sig : Z) | Gone (sig : option Z) | Resumed (sig : option Z).

(** wait_for_stop, task/syscall.c 92-127. *)
Fixpoint wait_log (fuel : nat) (e : env) (w : world) (status : Z) : option (Z * world * list event) :=
  match fuel with
  | O => None
  | S fuel' =>
      match e_cont e (w_n w) with
      | Some _ => Some (-1, tick w, [])
      | None =>
          let w := W (w_t w) (S (w_n w)) (w_conts w ++ [(t_regs (w_t w), t_mem (w_t w), status)]) in
          match e_wait e (w_n w) (t_regs (w_t w)) (t_mem (w_t w)) status with
          | WFail => Some (-1, tick w, [Resumed (Some status)])
          | WStopped sig r m =>
              let w := tick (set_t w (Tg r m (t_attached (w_t w)))) in
              let log := [Resumed (Some status); Stopped sig] in
              if (sig =? SIGSTOP) || (sig =? SIGTRAP) then Some (0, w, log)
              else if sig =? SIGSEGV then Some (-1, w, log)
              else match wait_log fuel' e w sig with Some (ret, w, l) => Some (ret, w, log ++ l) | None => None end
          | WEnded s r m =>
              let w := tick (set_t w (Tg r m (t_attached (w_t w)))) in
              match wait_log fuel' e w (match s with Some x => x | None => 0 end) with
              | Some (ret, w, l) => Some (ret, w, [Resumed (Some status); Gone s] ++ l)
              | None => None
              end
          end
      end
  end.

(** The wait loop of task_attach, task/core.c 692-718.  Which error
    number is returned when waitpid fails (697) is not modelled: -1. *)
Fixpoint attach_loop_log (fuel : nat) (e : env) (w : world) : option (Z * world * list event) :=
  match fuel with
  | O => None
  | S fuel' =>
      match e_attach_wait e (w_n w) (t_regs (w_t w)) (t_mem (w_t w)) with
      | WFail => Some (-1, tick w, [])
      | WStopped sig r m =>
          let w := tick (set_t w (Tg r m (t_attached (w_t w)))) in
          if sig =? SIGSTOP then Some (0, w, [Stopped sig])
          else
            let status := if sig =? SIGTRAP then 0 else sig in
            match e_cont e (w_n w) with
            | Some x => Some (- x, tick w, [Stopped sig])
            | None => match attach_loop_log fuel' e (tick w) with
                      | Some (ret, w, l) => Some (ret, w, [Stopped sig; Resumed (Some status)] ++ l)
                      | None => None
                      end
            end
      | WEnded s r m =>
          let w := tick (set_t w (Tg r m (t_attached (w_t w)))) in
          match e_cont e (w_n w) with
          | Some x => Some (- x, tick w, [Gone s])
          | None => match attach_loop_log fuel' e (tick w) with
                    | Some (ret, w, l) => Some (ret, w, [Gone s; Resumed s] ++ l)
                    | None => None
                    end
          end
      end
  end.

(** task_attach, task/core.c 681-721. *)
Definition attach_log (fuel : nat) (e : env) (w : world) : option (Z * world * list event) :=
  match e_attach e (w_n w) with
  | Some x => Some (- x, tick w, [])
  | None => attach_loop_log fuel e (tick (set_t w (Tg (t_regs (w_t w)) (t_mem (w_t w)) true)))
  end.

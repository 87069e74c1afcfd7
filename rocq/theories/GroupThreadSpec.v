(** GroupThreadSpec.v: group calls running at the same time on one sender key store (C77).

    The code has no locks. A thread makes calls for one sender key name, one after the other. A call loads the record of the name
    (groups/cipher.go:39, 74; groups/session_builder.go:40, 51), computes, and stores a record at most once
    (groups/cipher.go:66, 104; groups/session_builder.go:45, 65). Between any two accesses other threads may run. *)
From Verif Require Import Base Labels Crypto Bytehelper Ecc Cbc Messages SessionState Group Address GroupSpec GroupStoreSpec GroupConvSpec.

Definition gstores : Type := skname -> option grecord.

Section Run.
Context (C : crypto).
(** The answer of a call that loaded [st], and what it will write. *)
Definition greact (c : gcall) (st : option grecord) : ganswer * list geffect :=
  match c with
  | CEncrypt pt g => let '(o, _, es, _) := group_encrypt C st pt g in (AMessage o, es)
  | CDecrypt m => let '(o, _, _, es) := group_decrypt C st m in (APlain o, es)
  | CProcess d => let '(_, es) := group_process st d in (AProcessed, es)
  | CCreate g => let '(o, _, es, _) := group_create C st g in (ADistribution o, es)
  end.

Record gthread : Type := { gt_name : skname; gt_todo : list gcall; gt_busy : option (ganswer * list geffect); gt_outs : list ganswer }.

(** One access: load, store, or return. *)
Definition gadvance (w : gstores) (t : gthread) : gstores * gthread :=
  match gt_busy t with
  | None =>
      match gt_todo t with
      | [] => (w, t)
      | c :: rest => (w, {| gt_name := gt_name t; gt_todo := rest; gt_busy := Some (greact c (w (gt_name t))); gt_outs := gt_outs t |})
      end
  | Some (a, []) => (w, {| gt_name := gt_name t; gt_todo := gt_todo t; gt_busy := None; gt_outs := gt_outs t ++ [a] |})
  | Some (a, e :: es) => (put skname_eqb (gt_name t) (gcommit [e] (w (gt_name t))) w, {| gt_name := gt_name t; gt_todo := gt_todo t; gt_busy := Some (a, es); gt_outs := gt_outs t |})
  end.

Fixpoint gset {A} (i : nat) (x : A) (l : list A) : list A :=
  match l, i with
  | [], _ => []
  | _ :: r, O => x :: r
  | y :: r, S j => y :: gset j x r
  end.

(** A schedule: which thread makes the next access. *)
Fixpoint ginterleave (sched : list nat) (w : gstores) (ts : list gthread) : gstores * list gthread :=
  match sched with
  | [] => (w, ts)
  | i :: rest =>
      match nth_error ts i with
      | None => ginterleave rest w ts
      | Some t => let '(w', t') := gadvance w t in ginterleave rest w' (gset i t' ts)
      end
  end.
Definition glaunch (p : skname * list gcall) : gthread := {| gt_name := fst p; gt_todo := snd p; gt_busy := None; gt_outs := [] |}.
Definition gfinished (t : gthread) : Prop := gt_todo t = [] /\ gt_busy t = None.
End Run.

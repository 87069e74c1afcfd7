(** GroupStoreSpec.v: programs of group calls of one member on one sender key name, with a serializing store (C67). *)
From Verif Require Import Base Labels Crypto Bytehelper Ecc Cbc Messages SessionState Group GroupSpec.

(** The public calls: groups/cipher.go Encrypt, Decrypt; groups/session_builder.go Process, Create. *)
Inductive gcall : Type := CEncrypt (pt : bytes) (g : rng) | CDecrypt (m : skm) | CProcess (d : skd) | CCreate (g : rng).
Inductive ganswer : Type := AMessage (o : res skm) | APlain (o : res bytes) | AProcessed | ADistribution (o : res skd).

Section Play.
Context (C : crypto).
Definition gcall_run (c : gcall) (st : option grecord) : ganswer * option grecord :=
  match c with
  | CEncrypt pt g => let '(o, st') := gw_encrypt C pt g st in (AMessage o, st')
  | CDecrypt m => let '(o, st') := gw_decrypt C m st in (APlain o, st')
  | CProcess d => (AProcessed, gw_process d st)
  | CCreate g => let '(o, st') := gw_create C g st in (ADistribution o, st')
  end.
Fixpoint gplay (cs : list gcall) (st : option grecord) : list ganswer * option grecord :=
  match cs with
  | [] => ([], st)
  | c :: rest => let '(a, st1) := gcall_run c st in let '(l, st2) := gplay rest st1 in (a :: l, st2)
  end.
(** The answers of a program run on an empty store, and the store it leaves. *)
Definition ganswers (cs : list gcall) : list ganswer := fst (gplay cs None).
Definition gstore_after (cs : list gcall) : option grecord := snd (gplay cs None).
End Play.

Definition processes (cs : list gcall) : nat := length (filter (fun c => match c with CProcess _ => true | _ => false end) cs).

(** What processing a distribution message adds to the stored record: the public key only; the private key of a stored state is
    read back as 32 zero bytes. *)
Definition received (d : skd) : gstate :=
  {| gs_keys := []; gs_id := dm_id d;
     gs_chain := {| gc_key := match dm_chain d with Some c => c | None => [] end; gc_iter := dm_iter d |};
     gs_signing := {| kp_pub := dm_sigkey d; kp_priv := Some (zero_arr 32) |} |}.

(** What a member remembers of a sender key (GroupSpec.gview). *)
Definition view_of (s : gstate) : gview := {| gv_next := gc_iter (gs_chain s); gv_kept := map gm_iter (gs_keys s) |}.

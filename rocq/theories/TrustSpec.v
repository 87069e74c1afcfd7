(** TrustSpec.v: identity stores that trust a key on first use (C85). Nothing here models the library: the policy is the application's ([w_policy] of World.v). *)
From Verif Require Import Base Labels Crypto Ecc Keys X3dh Messages SessionState SessionRecord SessionBuilder
  SessionCipher Address World GroupSpec ConvSpec ThreadSpec CutSpec AttackSpec ManySpec.

(** A policy: the saved identity keys, an address and the key to be judged. *)
Definition policy : Type := (address -> option arr32) -> address -> arr32 -> bool.

(** It trusts a key when none, or the same one, is saved for the address. *)
Definition first_use (P : policy) : Prop := forall saved a k, saved a = None \/ saved a = Some k -> P saved a k = true.
(** It trusts no other key. *)
Definition no_change (P : policy) : Prop := forall saved a k, P saved a k = true -> saved a = None \/ saved a = Some k.

(** The policy of the store in tests/stores.go:40-43 (which compares fingerprints, that is the keys in hexadecimal). *)
Definition test_store_policy : policy := fun saved a k => match saved a with None => true | Some k' => arr_eqb k' k end.

(** The same stores with a policy that trusts every key. *)
Definition credulous (w : world) : world :=
  {| w_sessions := w_sessions w; w_saved := w_saved w; w_prekeys := w_prekeys w; w_signed := w_signed w; w_self := w_self w; w_reg := w_reg w;
     w_policy := fun _ _ _ => true |}.

(** Nothing, or the identity key of [you], is saved for [a]. *)
Definition knows_no_other (w : world) (a : address) (you : world) : Prop := w_saved w a = None \/ w_saved w a = Some (ip_pub (w_self you)).
(** Is anything injected to [p]? *)
Definition injected_to (p : party) (evs : list aevent) : Prop := exists k g, In (Inject p k g) evs.

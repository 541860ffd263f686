(** Results with an explicit panic outcome.

    Rust functions of type [Result<A, E>] that may also panic are modelled by
    [res E A].  This file models no code of /repo. *)

Set Implicit Arguments.

Inductive res (E A : Type) : Type :=
| Ok (a : A)
| Err (e : E)
| Panic.

Arguments Ok {E A} a.
Arguments Err {E A} e.
Arguments Panic {E A}.

Definition bind {E A B : Type} (r : res E A) (f : A -> res E B) : res E B :=
  match r with
  | Ok a => f a
  | Err e => Err e
  | Panic => Panic
  end.

Definition rmap {E A B : Type} (f : A -> B) (r : res E A) : res E B :=
  match r with
  | Ok a => Ok (f a)
  | Err e => Err e
  | Panic => Panic
  end.

Notation "'let*' x ':=' r 'in' k" := (bind r (fun x => k))
  (at level 200, x pattern, r at level 100, k at level 200, right associativity).

Definition is_ok {E A : Type} (r : res E A) : Prop := exists a, r = Ok a.
Definition is_err {E A : Type} (r : res E A) : Prop := exists e, r = Err e.

Lemma bind_ok : forall E A B (r : res E A) (f : A -> res E B) b,
  bind r f = Ok b -> exists a, r = Ok a /\ f a = Ok b.
Proof. intros E A B [a|e|] f b H; cbn in H; try discriminate; eauto. Qed.

Lemma bind_panic : forall E A B (r : res E A) (f : A -> res E B),
  bind r f = Panic -> r = Panic \/ exists a, r = Ok a /\ f a = Panic.
Proof. intros E A B [a|e|] f H; cbn in H; try discriminate; eauto. Qed.

Lemma bind_assoc : forall E A B C (r : res E A) (f : A -> res E B) (g : B -> res E C),
  bind (bind r f) g = bind r (fun a => bind (f a) g).
Proof. intros E A B C [a|e|] f g; reflexivity. Qed.

Lemma bind_ext : forall E A B (r : res E A) (f g : A -> res E B),
  (forall a, f a = g a) -> bind r f = bind r g.
Proof. intros E A B [a|e|] f g H; cbn; auto. Qed.

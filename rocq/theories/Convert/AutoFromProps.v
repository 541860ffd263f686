(** C116: the conversions that [AutoFrom] derives.  The documentation
    (serialization-types-macros/src/lib.rs 73-76) promises the instances "when
    the target type has identical field names with the annotated one, and each
    pair of the fields are convertible between each other". *)

From Coq Require Import String ZArith List Bool Arith Lia Permutation.
From Verif Require Import Lib.Res BinProt.Codec Convert.Conv Convert.ConvFacts Convert.BlockConv.
From Verif Require Import Convert.AutoFrom Convert.AutoFromFacts.
Import ListNotations.
Local Open Scope string_scope.
Local Open Scope list_scope.
Local Open Scope nat_scope.

(** ** Which instances are generated *)
(** the attributes of the form [#[auto_from(t)]] *)
Definition names_target (a : attribute) (t : string) : Prop :=
  outer a = true /\ attr_name a = Some "auto_from" /\ args a = Some t.
Definition has_members (d : decl) : Prop :=
  match d with
  | DStruct (FNamed l) => l <> []
  | DStruct (FUnnamed l) => l <> []
  | DEnum vs => vs <> []
  | DStruct FUnit | DUnion => False
  end.
Lemma targets_in : forall attrs t, In t (parse_types_from_attr attrs) <-> exists a, In a attrs /\ names_target a t.
Proof.
  intros attrs t; unfold parse_types_from_attr; rewrite in_flat_map; unfold names_target. split; intros (a & I & H); exists a; (split; [exact I|]).
  - destruct (outer a); [|destruct H]. destruct (attr_name a) as [n|]; [|destruct H].
    destruct (String.eqb n "auto_from") eqn:E; [|destruct H]. apply String.eqb_eq in E; subst n. destruct (args a); [|destruct H].
    destruct H as [->|[]]. auto.
  - destruct H as (-> & -> & ->). rewrite String.eqb_refl. left; reflexivity.
Qed.
Lemma struct_some : forall named, named <> [] <-> exists l, auto_from_for_struct_with_named_fields named = Some (BStruct l).
Proof.
  intros named. unfold auto_from_for_struct_with_named_fields. pose proof (sort_fields_perm named [] [] [] []) as P.
  destruct (sort_fields named [] [] [] []) as [[[p v] o] b]. cbn [joined with_kind map app] in P. split.
  - intros N. destruct p, v, o, b; try (eexists; reflexivity). cbn in P. apply Permutation_nil in P.
    exfalso; apply N. destruct named; [reflexivity|discriminate].
  - intros [l H] ->. apply Permutation_sym, Permutation_nil in P. destruct p, v, o, b; try discriminate.
Qed.
Lemma struct_perm : forall named l, auto_from_for_struct_with_named_fields named = Some (BStruct l) -> Permutation l (kinds named).
Proof.
  intros named l H. unfold auto_from_for_struct_with_named_fields in H. pose proof (sort_fields_perm named [] [] [] []) as P.
  destruct (sort_fields named [] [] [] []) as [[[p v] o] b]. cbn [joined] in P. cbn [with_kind map app] in P.
  destruct p, v, o, b; try discriminate; injection H as <-; exact P.
Qed.
Lemma tuple_some : forall named, named <> [] -> auto_from_for_struct_with_unnamed_fields named = Some (BTuple (combine (seq 0 (length named)) (map kind_of named))).
Proof.
  intros named N. unfold auto_from_for_struct_with_unnamed_fields. rewrite positions_spec. cbn [app length].
  destruct named; [contradiction|]. reflexivity.
Qed.

(** The macro panics exactly for a unit struct or a union that names a target;
    it generates nothing exactly if no target is named or there are no members;
    otherwise it generates one body for each attribute, in order. *)
Theorem C116_output : forall attrs d,
  (auto_from_macro attrs d = Panic <-> (exists a t, In a attrs /\ names_target a t) /\ (d = DUnion \/ d = DStruct FUnit)) /\
  (forall out, auto_from_macro attrs d = Ok out ->
     (out <> [] <-> (exists a t, In a attrs /\ names_target a t) /\ has_members d) /\
     (out <> [] -> map fst out = parse_types_from_attr attrs /\ exists b, forall x, In x out -> snd x = b)).
Proof.
  intros attrs d. assert (T : (exists a t, In a attrs /\ names_target a t) <-> parse_types_from_attr attrs <> []).
  { split.
    - intros (a & t & I & N) E. assert (X : In t (parse_types_from_attr attrs)) by (apply targets_in; eauto). rewrite E in X; destruct X.
    - intros N. destruct (parse_types_from_attr attrs) as [|t ts] eqn:E; [contradiction|].
      assert (X : In t (parse_types_from_attr attrs)) by (rewrite E; left; reflexivity). apply targets_in in X. destruct X as (a & X); eauto. }
  unfold auto_from_macro. destruct (parse_types_from_attr attrs) as [|t ts].
  - split; [split; [discriminate|intros [N _]; exfalso; apply T in N; apply N; reflexivity]|]. intros out H; injection H as <-. split; [|congruence].
    split; [congruence|intros [N _]; exfalso; apply T in N; apply N; reflexivity].
  - assert (W : exists a t, In a attrs /\ names_target a t) by (apply T; discriminate).
    assert (G : forall (o : option body) out, Ok (match o with Some b => map (fun t => (t, b)) (t :: ts) | None => [] end) = @Ok unit _ out ->
      (out <> [] <-> o <> None) /\ (out <> [] -> map fst out = t :: ts /\ exists b, forall x, In x out -> snd x = b)).
    { intros [b|] out H; injection H as <-; (split; [|intros N; try congruence]); [split; discriminate| |split; congruence].
      split; [cbn [map fst]; rewrite map_map; cbn [fst]; rewrite map_id; reflexivity|]. exists b. intros x [<-|I]; [reflexivity|]. apply in_map_iff in I. destruct I as (y & <- & _). reflexivity. }
    destruct d as [[l|l|]|vs|]; cbn [has_members].
    + split; [split; [discriminate|intros [_ [?|?]]; discriminate]|]. intros out H. apply G in H. destruct H as [H1 H2]. split; [|exact H2].
      rewrite H1, struct_some. split; [|intros [_ [x ->]]; discriminate]. intros N; split; [exact W|].
      destruct (auto_from_for_struct_with_named_fields l) as [b|] eqn:E; [|contradiction].
      unfold auto_from_for_struct_with_named_fields in E. destruct (sort_fields l [] [] [] []) as [[[p v] o] q].
      destruct p, v, o, q; try discriminate; injection E as <-; eauto.
    + split; [split; [discriminate|intros [_ [?|?]]; discriminate]|]. intros out H. apply G in H. destruct H as [H1 H2]. split; [|exact H2].
      rewrite H1. destruct l as [|x l]; [cbn; split; [congruence|intros [_ N]; congruence]|].
      rewrite tuple_some by discriminate. split; [intros _; split; [exact W|discriminate]|discriminate].
    + split; [split; [intros _; split; [exact W|right; reflexivity]|reflexivity]|]. intros out H; discriminate.
    + split; [split; [discriminate|intros [_ [?|?]]; discriminate]|]. intros out H. apply G in H. destruct H as [H1 H2]. split; [|exact H2].
      rewrite H1. unfold auto_from_for_enum. destruct vs as [|x vs]; [cbn; split; [congruence|intros [_ N]; congruence]|].
      cbn [map]. split; [intros _; split; [exact W|discriminate]|discriminate].
    + split; [split; [intros _; split; [exact W|left; reflexivity]|reflexivity]|]. intros out H; discriminate.
Qed.
Definition auto (t : string) : attribute := {| outer := true; attr_name := Some "auto_from"; args := Some t |}.
Definition doc : attribute := {| outer := true; attr_name := Some "doc"; args := Some "text" |}.
Example C116_output_example :
  auto_from_macro [doc; auto "A"; auto "B"] (DStruct (FNamed [("x", TyPath [("u64", [])])])) =
    Ok [("A", BStruct [("x", Plain)]); ("B", BStruct [("x", Plain)])] /\
  auto_from_macro [auto "A"] (DStruct FUnit) = Panic /\ auto_from_macro [doc] (DStruct FUnit) = Ok [].
Proof. split; [|split]; reflexivity. Qed.

(** ** How a member is converted: by the first segment of its path that is one of
    the three names; what is inside the brackets plays no part. *)
Definition wrapper (n : string) : Prop := n = "Vec" \/ n = "Option" \/ n = "Box".
Definition keyword (k : kind) : option string :=
  match k with Plain => None | EachVec => Some "Vec" | EachOpt => Some "Option" | InBox => Some "Box" end.
Theorem C116_kind : forall t,
  (kind_of t = Plain <-> forall segs n a, t = TyPath segs -> In (n, a) segs -> ~ wrapper n) /\
  (forall k w, keyword k = Some w ->
     (kind_of t = k <-> exists pre a post, t = TyPath (pre ++ (w, a) :: post) /\ forall n b, In (n, b) pre -> ~ wrapper n)).
Proof.
  assert (P : forall segs, kind_of_segs segs = Plain <-> forall n a, In (n, a) segs -> ~ wrapper n).
  { induction segs as [|[n a] segs IH]; cbn [kind_of_segs]; [split; [intros _ n a []|reflexivity]|].
    destruct (String.eqb_spec n "Vec") as [->|N1]; [split; [discriminate|intros H; exfalso; eapply H; [left; reflexivity|left; reflexivity]]|].
    destruct (String.eqb_spec n "Option") as [->|N2]; [split; [discriminate|intros H; exfalso; eapply H; [left; reflexivity|right; left; reflexivity]]|].
    destruct (String.eqb_spec n "Box") as [->|N3]; [split; [discriminate|intros H; exfalso; eapply H; [left; reflexivity|right; right; reflexivity]]|].
    rewrite IH. split; intros H m b I; [|apply (H m b); right; exact I].
    destruct I as [Q|I]; [injection Q as <- _; intros [?|[?|?]]; contradiction|apply (H m b I)]. }
  assert (K : forall k w, keyword k = Some w -> forall segs, kind_of_segs segs = k <->
    exists pre a post, segs = pre ++ (w, a) :: post /\ forall n b, In (n, b) pre -> ~ wrapper n).
  { intros k w Hk segs. split.
    - induction segs as [|[n a] segs IH]; cbn [kind_of_segs]; [intros <-; discriminate|].
      destruct (String.eqb_spec n "Vec") as [->|N1]; [intros <-; injection Hk as <-; exists [], a, segs; split; [reflexivity|intros ? ? []]|].
      destruct (String.eqb_spec n "Option") as [->|N2]; [intros <-; injection Hk as <-; exists [], a, segs; split; [reflexivity|intros ? ? []]|].
      destruct (String.eqb_spec n "Box") as [->|N3]; [intros <-; injection Hk as <-; exists [], a, segs; split; [reflexivity|intros ? ? []]|].
      intros H. destruct (IH H) as (pre & a' & post & -> & Hp). exists ((n, a) :: pre), a', post. split; [reflexivity|].
      intros m b [Q|I]; [injection Q as <- _; intros [?|[?|?]]; contradiction|apply (Hp m b I)].
    - intros (pre & a & post & -> & Hp). induction pre as [|[n b] pre IH]; cbn [app kind_of_segs].
      + destruct k; try discriminate; injection Hk as <-; reflexivity.
      + assert (N : ~ wrapper n) by (apply (Hp n b); left; reflexivity). unfold wrapper in N.
        destruct (String.eqb_spec n "Vec") as [->|_]; [exfalso; auto|]. destruct (String.eqb_spec n "Option") as [->|_]; [exfalso; auto|].
        destruct (String.eqb_spec n "Box") as [->|_]; [exfalso; auto|]. apply IH. intros m c I. apply (Hp m c). right; exact I. }
  intros t. split.
  - destruct t as [segs|]; cbn [kind_of]; [rewrite P; split; intros H|split; [intros _ segs n a Q; discriminate|reflexivity]].
    + intros s n a Q; injection Q as <-; apply H.
    + intros n a; apply (H segs n a eq_refl).
  - intros k w Hk. destruct t as [segs|]; cbn [kind_of].
    + rewrite (K k w Hk). split; intros (pre & a & post & E & Hp); exists pre, a, post; (split; [congruence|exact Hp]).
    + split; [intros <-; discriminate|intros (pre & a & post & Q & _); discriminate].
Qed.
(** [std::vec::Vec<T>] maps over the vector, [Vec::T] too, and [Option<Vec<T>>]
    only over the option; an array and an alias [MyVec] are converted whole. *)
Example C116_kind_example :
  kind_of (TyPath [("std", []); ("vec", []); ("Vec", [TyPath [("T", [])]])]) = EachVec /\
  kind_of (TyPath [("Vec", []); ("Option", [])]) = EachVec /\
  kind_of (TyPath [("Option", [TyPath [("Vec", [TyPath [("T", [])]])]])]) = EachOpt /\
  kind_of (TyPath [("MyVec", [])]) = Plain /\ kind_of TyOther = Plain.
Proof. repeat match goal with |- _ /\ _ => split end; reflexivity. Qed.

(** ** Structs with named members *)
(** Both instances compile exactly if the two types have the same members. *)
Theorem C116_struct_compiles : forall named target l,
  NoDup (map fst named) -> auto_from_for_struct_with_named_fields named = Some (BStruct l) ->
  (compile_named (map fst named) target l = true /\ compile_named target (map fst named) l = true <->
   forall n, In n (map fst named) <-> In n target).
Proof.
  intros named target l N H. apply struct_perm in H. rewrite !compile_named_spec.
  assert (Q : Permutation (map fst l) (map fst named)).
  { apply (Permutation_map fst) in H. unfold kinds in H. rewrite map_map in H. exact H. }
  assert (I : forall n, In n (map fst l) <-> In n (map fst named)).
  { intros n; split; apply Permutation_in; [exact Q|apply Permutation_sym; exact Q]. }
  assert (N' : NoDup (map fst l)) by (eapply Permutation_NoDup; [apply Permutation_sym; exact Q|exact N]).
  split.
  - intros [(_ & _ & A) _] n. rewrite <- I. apply A.
  - intros S. repeat match goal with |- _ /\ _ => split end; try exact N'.
    + intros n X; apply I; exact X.
    + intros n; rewrite I; apply S.
    + intros n X; apply S, I, X.
    + exact I.
Qed.
(** One way only is not enough: with a further member in the target type the
    instance towards the annotated type would compile, the other does not. *)
Example C116_struct_compiles_example :
  let named := [("a", TyPath [("u8", [])]); ("b", TyPath [("Vec", [])])] in
  exists l, auto_from_for_struct_with_named_fields named = Some (BStruct l) /\
  compile_named (map fst named) ["b"; "a"] l = true /\
  compile_named ["a"; "b"; "c"] (map fst named) l = true /\ compile_named (map fst named) ["a"; "b"; "c"] l = false.
Proof. eexists. repeat match goal with |- _ /\ _ => split end; reflexivity. Qed.

Lemma struct_kinds_in : forall named l n k, auto_from_for_struct_with_named_fields named = Some (BStruct l) ->
  (In (n, k) l <-> exists t, In (n, t) named /\ kind_of t = k).
Proof.
  intros named l n k H. apply struct_perm in H. split.
  - intros I. apply (Permutation_in _ H) in I. unfold kinds in I. apply in_map_iff in I. destruct I as ((m, t) & Q & I).
    injection Q as -> <-. eauto.
  - intros (t & I & <-). apply (Permutation_in _ (Permutation_sym H)). unfold kinds. apply in_map_iff. exists (n, t); auto.
Qed.
(** Each member of the result is the conversion of the member with its name, in
    whatever orders the two types declare them; this holds for both instances. *)
Theorem C116_struct : forall into named l src self vs ws,
  auto_from_for_struct_with_named_fields named = Some (BStruct l) ->
  compile_named src self l = true -> NoDup self -> length src = length vs ->
  (exec_named into src self l vs = Ok ws <->
   length ws = length self /\
   forall n t v w, In (n, t) named -> at_name n src vs = Some v -> at_name n self ws = Some w -> converts (into n) (kind_of t) v w).
Proof.
  intros into named l src self vs ws H C N L. rewrite exec_named_ok by assumption.
  split; intros [Lw X]; (split; [exact Lw|]).
  - intros n t v w I. apply X. apply (struct_kinds_in _ _ _ _ H). eauto.
  - intros n k v w I. apply (struct_kinds_in _ _ _ _ H) in I. destruct I as (t & I & <-). apply X. exact I.
Qed.
(** It panics exactly if the conversion of some part does. *)
Theorem C116_struct_panics : forall into named l src self vs,
  auto_from_for_struct_with_named_fields named = Some (BStruct l) ->
  compile_named src self l = true -> length src = length vs ->
  (forall n, total_or_panic (into n)) ->
  (forall n t v, In (n, t) named -> at_name n src vs = Some v -> has_shape (kind_of t) v) ->
  (exec_named into src self l vs = Panic <->
   exists n t v, In (n, t) named /\ at_name n src vs = Some v /\ fails (into n) (kind_of t) v) /\
  exec_named into src self l vs <> Err tt.
Proof.
  intros into named l src self vs H C L T S. apply compile_named_spec in C. destruct C as (_ & I & _).
  destruct (eval_named_panic into src vs l T I L) as [P Q].
  { intros n k v X Hv. apply (struct_kinds_in _ _ _ _ H) in X. destruct X as (t & X & <-). eapply S; eassumption. }
  unfold exec_named. assert (E : (exists n k v, In (n, k) l /\ at_name n src vs = Some v /\ fails (into n) k v) <->
    (exists n t v, In (n, t) named /\ at_name n src vs = Some v /\ fails (into n) (kind_of t) v)).
  { split.
    - intros (n & k & v & X & F). apply (struct_kinds_in _ _ _ _ H) in X. destruct X as (t & X & <-). exists n, t, v; auto.
    - intros (n & t & v & X & F). exists n, (kind_of t), v. split; [apply (struct_kinds_in _ _ _ _ H); eauto|exact F]. }
  rewrite <- E. destruct (eval_named into src vs l) as [bs|[]|]; cbn [bind]; [|congruence|].
  - split; [|discriminate]. rewrite <- P. split; discriminate.
  - split; [exact P|discriminate].
Qed.
Lemma converts_back : forall f g k v w, (forall x y, f x = Ok y -> g y = Ok x) -> converts f k v w -> converts g k w v.
Proof.
  intros f g k v w H C. destruct C; constructor; auto.
  clear - H H0. induction H0; constructor; auto.
Qed.
(** If the conversions of the parts are inverse to each other, so are the two
    instances. *)
Theorem C116_struct_back : forall into back named target l vs ws,
  NoDup (map fst named) -> NoDup target ->
  auto_from_for_struct_with_named_fields named = Some (BStruct l) ->
  (forall n, In n (map fst named) <-> In n target) ->
  (forall n x y, into n x = Ok y -> back n y = Ok x) ->
  length vs = length named ->
  exec_named into (map fst named) target l vs = Ok ws ->
  exec_named back target (map fst named) l ws = Ok vs.
Proof.
  intros into back named target l vs ws N N' H S B L E.
  destruct (proj2 (C116_struct_compiles named target l N H) S) as [C1 C2].
  assert (L1 : length (map fst named) = length vs) by (rewrite map_length; auto).
  apply (C116_struct into named l _ _ vs ws H C1 N' L1) in E. destruct E as [Lw X].
  apply (C116_struct back named l _ _ ws vs H C2 N (eq_sym Lw)). split; [congruence|].
  intros n t v w I Hv Hw. eapply converts_back; [apply B|]. eapply X; eassumption.
Qed.
(** a doubling that panics on 3 *)
Definition double (_ : string) (v : val) : res unit val :=
  match v with VInt z => if Z.eqb z 3 then Panic else Ok (VInt (2 * z)) | _ => Panic end.
Example C116_struct_example :
  let named := [("a", TyPath [("Vec", [])]); ("b", TyPath [("u8", [])]); ("c", TyPath [("Option", [])])] in
  exists l, auto_from_for_struct_with_named_fields named = Some (BStruct l) /\ map fst l = ["b"; "a"; "c"] /\
  exec_named double ["a"; "b"; "c"] ["c"; "b"; "a"] l [VSeq [VInt 1; VInt 2]; VInt 5; VSome (VInt 7)] =
    Ok [VSome (VInt 14); VInt 10; VSeq [VInt 2; VInt 4]] /\
  exec_named double ["a"; "b"; "c"] ["c"; "b"; "a"] l [VSeq [VInt 1; VInt 3]; VInt 5; VNone] = Panic.
Proof. eexists. repeat match goal with |- _ /\ _ => split end; reflexivity. Qed.

(** ** Tuple structs *)
Theorem C116_tuple_compiles : forall named n, named <> [] ->
  exists l, auto_from_for_struct_with_unnamed_fields named = Some (BTuple l) /\
  (compile_tuple (length named) n l = true /\ compile_tuple n (length named) l = true <-> n = length named).
Proof.
  intros named n N. eexists. split; [apply tuple_some, N|]. unfold compile_tuple.
  rewrite !combine_length, !seq_length, !map_length, !Nat.min_id, !andb_true_iff, !Nat.eqb_eq, !forallb_forall.
  split; [intros [[_ E] _]; congruence|]. intros ->.
  assert (A : forall x, In x (combine (seq 0 (length named)) (map kind_of named)) -> (fst x <? length named) = true).
  { intros [i k] I. apply in_combine_l in I. apply in_seq in I. apply Nat.ltb_lt. cbn [fst]. lia. }
  auto.
Qed.
Theorem C116_tuple : forall into named l vs ws,
  auto_from_for_struct_with_unnamed_fields named = Some (BTuple l) -> length vs = length named ->
  (exec_tuple into l vs = Ok ws <->
   length ws = length named /\
   forall i t v w, nth_error named i = Some t -> nth_error vs i = Some v -> nth_error ws i = Some w -> converts (into i) (kind_of t) v w).
Proof.
  intros into named l vs ws H L. assert (N : named <> []) by (intros ->; discriminate).
  rewrite tuple_some in H by exact N. injection H as <-. rewrite <- (map_length kind_of named) in L |- *.
  rewrite exec_tuple_ok by exact L. split; intros [Lw X]; (split; [exact Lw|]).
  - intros i t v w Ht. apply X. apply map_nth_error; exact Ht.
  - intros i k v w Hk. rewrite nth_error_map in Hk. destruct (nth_error named i) as [t|] eqn:E; [|discriminate].
    injection Hk as <-. apply X; exact E.
Qed.
Theorem C116_tuple_panics : forall into named l vs,
  auto_from_for_struct_with_unnamed_fields named = Some (BTuple l) -> length vs = length named ->
  (forall i, total_or_panic (into i)) ->
  (forall i t v, nth_error named i = Some t -> nth_error vs i = Some v -> has_shape (kind_of t) v) ->
  (exec_tuple into l vs = Panic <->
   exists i t v, nth_error named i = Some t /\ nth_error vs i = Some v /\ fails (into i) (kind_of t) v).
Proof.
  intros into named l vs H L T S. assert (N : named <> []) by (intros ->; discriminate).
  rewrite tuple_some in H by exact N. injection H as <-. rewrite <- (map_length kind_of named) in L |- *.
  rewrite exec_tuple_panic; try assumption.
  - split.
    + intros (i & k & v & A & B). rewrite nth_error_map in A. destruct (nth_error named i) as [t|] eqn:E; [|discriminate].
      injection A as <-. exists i, t, v; auto.
    + intros (i & t & v & A & B). exists i, (kind_of t), v. split; [apply map_nth_error; exact A|exact B].
  - intros i k v A B. rewrite nth_error_map in A. destruct (nth_error named i) as [t|] eqn:E; [|discriminate].
    injection A as <-. eapply S; eassumption.
Qed.
Example C116_tuple_example :
  let named := [TyPath [("Box", [TyPath [("u8", [])]])]; TyPath [("Option", [])]] in
  exists l, auto_from_for_struct_with_unnamed_fields named = Some (BTuple l) /\ l = [(0, InBox); (1, EachOpt)] /\
  exec_tuple (fun _ => double "") l [VInt 1; VSome (VInt 2)] = Ok [VInt 2; VSome (VInt 4)] /\
  exec_tuple (fun _ => double "") l [VInt 1; VSome (VInt 3)] = Panic.
Proof. eexists. repeat match goal with |- _ /\ _ => split end; reflexivity. Qed.

(** ** Enums *)
Definition shapes (variants : list (string * fields)) : list (string * shape) := map (fun x => (fst x, shape_of (snd x))) variants.
(** the two variants have the same members, and there are some unless the
    variant has neither parentheses nor braces *)
Definition alike (f : fields) (t : shape) : Prop :=
  match f, t with
  | FUnit, SUnit => True
  | FUnnamed l, STuple m => l <> [] /\ m = length l
  | FNamed l, SNamed ms => l <> [] /\ forall n, In n (map fst l) <-> In n ms
  | _, _ => False
  end.
Lemma arm_compiles : forall f t, (forall l, f = FNamed l -> NoDup (map fst l)) ->
  (compile_arm (shape_of f) t (arm_of f) = true /\ compile_arm t (shape_of f) (arm_of f) = true <-> alike f t).
Proof.
  intros f t N. destruct f as [l|l|]; unfold arm_of; cbn [fields_len shape_of].
  - destruct l as [|x l]; [cbn; destruct t; cbn; intuition congruence|]. cbn [length].
    destruct t as [|m|ms]; cbn [compile_arm alike]; try (intuition congruence).
    set (ll := x :: l) in *. assert (E : map fst (map (fun x : string * rty => (fst x, kind_of (snd x))) ll) = map fst ll) by (rewrite map_map; reflexivity).
    specialize (N ll eq_refl). rewrite !andb_true_iff, !compile_named_spec, !forallb_forall, E. split.
    + intros [[(_ & _ & A) _] _]. split; [discriminate|exact A].
    + intros [_ S]. repeat match goal with |- _ /\ _ => split end; try exact N; try (intros n; first [apply S | reflexivity]).
      all: intros n I; first [exact I | apply mem_spec; exact I | apply S; exact I | apply mem_spec, S; exact I].
  - destruct l as [|x l]; [cbn; destruct t; cbn; intuition congruence|]. cbn [length].
    destruct t as [|m|ms]; cbn [compile_arm alike]; try (intuition congruence).
    rewrite map_length, !andb_true_iff, !Nat.eqb_eq. cbn [length]. split; [intros [[_ A] _]; split; [discriminate|congruence]|].
    intros [_ ->]. auto.
  - destruct t; cbn; intuition congruence.
Qed.
Lemma shape_at_some : forall vars n s, shape_at n vars = Some s -> In (n, s) vars.
Proof.
  intros vars n s; unfold shape_at; induction vars as [|[m t] vars IH]; cbn [map at_name fst snd]; [discriminate|].
  destruct (String.eqb_spec m n) as [->|_]; [intros H; injection H as ->; left; reflexivity|]. right; auto.
Qed.
Lemma at_in : forall A (vars : list (string * A)) n s, NoDup (map fst vars) -> In (n, s) vars -> at_name n (map fst vars) (map snd vars) = Some s.
Proof.
  intros A; induction vars as [|[m t] vars IH]; intros n s N I; [destruct I|]. cbn [map at_name fst snd] in *. inversion N as [|? ? X N']; subst.
  destruct I as [Q|I]; [injection Q as -> ->; rewrite String.eqb_refl; reflexivity|].
  destruct (String.eqb_spec m n) as [->|_]; [|apply IH; assumption]. exfalso; apply X. change n with (fst (n, s)). apply in_map; exact I.
Qed.
Lemma shapes_names : forall variants, map fst (shapes variants) = map fst variants.
Proof. intros; unfold shapes; rewrite map_map; reflexivity. Qed.
Lemma shape_at_shapes : forall variants n f, NoDup (map fst variants) -> In (n, f) variants -> shape_at n (shapes variants) = Some (shape_of f).
Proof.
  intros variants n f N I. unfold shape_at. apply at_in; [rewrite shapes_names; exact N|].
  unfold shapes. apply in_map_iff. exists (n, f); auto.
Qed.
Lemma arms_of : forall variants arms, auto_from_for_enum variants = Some (BMatch arms) -> arms = map (fun v => (fst v, arm_of (snd v))) variants.
Proof. intros variants arms; unfold auto_from_for_enum. destruct (map _ variants); intros H; [discriminate|]; injection H as <-; reflexivity. Qed.

Theorem C116_enum_compiles : forall variants target arms,
  NoDup (map fst variants) -> NoDup (map fst target) -> (forall n l, In (n, FNamed l) variants -> NoDup (map fst l)) ->
  auto_from_for_enum variants = Some (BMatch arms) ->
  (compile_match (shapes variants) target arms = true /\ compile_match target (shapes variants) arms = true <->
   (forall n, In n (map fst variants) <-> In n (map fst target)) /\
   forall n f t, In (n, f) variants -> In (n, t) target -> alike f t).
Proof.
  intros variants target arms N N' NF H. apply arms_of in H; subst arms. unfold compile_match.
  rewrite !andb_true_iff, !forallb_forall.
  assert (M : map fst (map (fun v : string * fields => (fst v, arm_of (snd v))) variants) = map fst variants) by (rewrite map_map; reflexivity).
  rewrite M. split.
  - intros [[A _] [B C]]. split.
    + intros n; split; intros I.
      * apply in_map_iff in I. destruct I as ((m & f) & <- & I). specialize (A (m, arm_of f)). cbn [fst snd] in A.
        assert (X : In (m, arm_of f) (map (fun v => (fst v, arm_of (snd v))) variants)) by (apply in_map_iff; exists (m, f); auto).
        apply A in X. destruct (shape_at m (shapes variants)); [|discriminate].
        destruct (shape_at m target) eqn:E; [|discriminate]. apply shape_at_some in E. apply in_map_iff. exists (m, s0); auto.
      * apply in_map_iff in I. destruct I as ((m & t) & <- & I). apply mem_spec, (C (m, t) I).
    + intros n f t I J. assert (X : In (n, arm_of f) (map (fun v => (fst v, arm_of (snd v))) variants)) by (apply in_map_iff; exists (n, f); auto).
      pose proof (A _ X) as A'. pose proof (B _ X) as B'. cbn [fst snd] in A', B'.
      rewrite (shape_at_shapes _ _ _ N I) in A', B'. unfold shape_at in A', B'. rewrite (at_in _ _ _ _ N' J) in A', B'.
      apply arm_compiles; [intros l ->; eapply NF; exact I|auto].
  - intros [S K].
    assert (G : forall x, In x (map (fun v => (fst v, arm_of (snd v))) variants) -> exists f t,
      shape_at (fst x) (shapes variants) = Some (shape_of f) /\ shape_at (fst x) target = Some t /\ snd x = arm_of f /\
      compile_arm (shape_of f) t (arm_of f) = true /\ compile_arm t (shape_of f) (arm_of f) = true).
    { intros x I. apply in_map_iff in I. destruct I as ((n & f) & <- & I). cbn [fst snd].
      assert (J : In n (map fst target)) by (apply S; change n with (fst (n, f)); apply in_map; exact I).
      apply in_map_iff in J. destruct J as ((m & t) & Q & J). cbn [fst] in Q; subst m. exists f, t.
      split; [apply shape_at_shapes; assumption|]. split; [unfold shape_at; apply at_in; assumption|]. split; [reflexivity|].
      apply arm_compiles; [intros l ->; eapply NF; exact I|]. eapply K; eassumption. }
    repeat match goal with |- _ /\ _ => split end.
    + intros x I. destruct (G x I) as (f & t & -> & -> & -> & A & B). exact A.
    + intros x I. unfold shapes in I. apply in_map_iff in I. destruct I as ((n & f) & <- & I). cbn [fst].
      apply mem_spec. change n with (fst (n, f)). apply in_map; exact I.
    + intros x I. destruct (G x I) as (f & t & -> & -> & -> & A & B). exact B.
    + intros x I. apply mem_spec, S. apply in_map; exact I.
Qed.
(** An empty pair of parentheses is not accepted although the other type has the
    very same variant; the documentation does not exclude it. *)
Theorem C116_empty_variant_refuted :
  exists variants arms, auto_from_for_enum variants = Some (BMatch arms) /\
  compile_match (shapes variants) (shapes variants) arms = false /\ NoDup (map fst variants).
Proof. exists [("A", FUnnamed [])]. eexists. split; [reflexivity|]. split; [reflexivity|]. repeat constructor; intros []. Qed.
(** Identical members, and yet no instances: a unit struct stops the compiler, a
    struct with braces and no members gets nothing. *)
Theorem C116_no_members_refuted :
  auto_from_macro [auto "A"] (DStruct FUnit) = Panic /\ auto_from_macro [auto "A"] (DStruct (FNamed [])) = Ok [] /\
  auto_from_macro [auto "A"] (DStruct (FUnnamed [])) = Ok [].
Proof. split; [|split]; reflexivity. Qed.

(** the members of a variant: by position or by name *)
Definition moved (into : part -> val -> res unit val) (f : fields) (s t : shape) (vs ws : list val) : Prop :=
  match f with
  | FUnit => ws = []
  | FUnnamed l => length ws = length l /\
      forall i ty v w, nth_error l i = Some ty -> nth_error vs i = Some v -> nth_error ws i = Some w -> converts (into (Pos i)) (kind_of ty) v w
  | FNamed l => exists ns ms, s = SNamed ns /\ t = SNamed ms /\ length ws = length ms /\
      forall n ty v w, In (n, ty) l -> at_name n ns vs = Some v -> at_name n ms ws = Some w -> converts (into (Nam n)) (kind_of ty) v w
  end.
Definition size (s : shape) : nat := match s with SUnit => 0 | STuple n => n | SNamed ns => length ns end.
(** A value of a variant becomes a value of the variant with the same name, with
    its members converted.  [src] and [self] are the two types in either order. *)
Theorem C116_enum : forall into variants arms src self i vs n f s t r,
  NoDup (map fst variants) -> NoDup (map fst src) -> NoDup (map fst self) ->
  auto_from_for_enum variants = Some (BMatch arms) -> compile_match src self arms = true ->
  nth_error src i = Some (n, s) -> In (n, t) self -> In (n, f) variants -> s = shape_of f \/ t = shape_of f -> length vs = size s ->
  (forall ms, t = SNamed ms -> NoDup ms) ->
  (exec_match into src self arms (VEnum i vs) = Ok r <->
   exists j ws, r = VEnum j ws /\ nth_error (map fst self) j = Some n /\ moved (into n) f s t vs ws).
Proof.
  intros into variants arms src self i vs n f s t r N Ns N' H C Hi It If B L ND. apply arms_of in H; subst arms.
  unfold compile_match in C. apply andb_true_iff in C. destruct C as [C _]. rewrite forallb_forall in C.
  assert (X : In (n, arm_of f) (map (fun v => (fst v, arm_of (snd v))) variants)) by (apply in_map_iff; exists (n, f); auto).
  apply C in X. cbn [fst snd] in X. unfold shape_at in X.
  rewrite (at_in _ _ _ _ Ns (nth_error_In _ _ Hi)), (at_in _ _ _ _ N' It) in X.
  assert (E : exec_match into src self (map (fun v => (fst v, arm_of (snd v))) variants) (VEnum i vs) =
    let* bs := exec_arm (into n) s t (arm_of f) vs in Ok (VEnum (index_of n (map fst self)) bs)).
  { cbn [exec_match]. rewrite Hi. unfold shape_at. rewrite (at_in _ _ _ _ N' It).
    rewrite (at_in _ _ n (arm_of f)); [reflexivity|rewrite map_map; exact N|apply in_map_iff; exists (n, f); auto]. }
  assert (J : forall j, nth_error (map fst self) j = Some n <-> j = index_of n (map fst self)).
  { intros j; split; intros Q; [symmetry; apply index_nth; assumption|]. subst j.
    pose proof (at_in _ _ _ _ N' It) as A. apply at_name_index in A. apply A. }
  assert (G : forall ws, exec_arm (into n) s t (arm_of f) vs = Ok ws <-> moved (into n) f s t vs ws).
  { clear - X B L ND. intros ws. destruct f as [l|l|]; unfold arm_of in *; cbn [fields_len] in *.
    - destruct l as [|x l]; [exfalso; destruct s, t; cbn in X; try discriminate; destruct B; discriminate|].
      + cbn [length] in *. set (ll := x :: l) in *. destruct s as [|?|ns], t as [|?|ms]; cbn [compile_arm] in X; try discriminate.
        apply andb_true_iff in X. destruct X as [X _]. cbn [exec_arm moved size] in *.
        rewrite exec_named_ok; [|exact X|apply ND; reflexivity|auto]. split.
        * intros [Lw K]. exists ns, ms. repeat match goal with |- _ /\ _ => split end; try reflexivity; [exact Lw|].
          intros m ty v w I. apply K. apply in_map_iff. exists (m, ty); auto.
        * intros (ns' & ms' & Q1 & Q2 & Lw & K). injection Q1 as <-; injection Q2 as <-. split; [exact Lw|].
          intros m k v w I. apply in_map_iff in I. destruct I as ((m' & ty) & Q & I). cbn [fst snd] in Q. injection Q as -> <-. apply K; exact I.
    - destruct l as [|x l]; [destruct s, t; cbn in X; try discriminate|].
      + cbn [exec_arm moved length]. split; [intros Q; injection Q as <-; split; [reflexivity|intros [|] ? ? ?; discriminate]|].
        intros [Q _]. destruct ws; [reflexivity|discriminate].
      + cbn [length] in *. set (ll := x :: l) in *. destruct s as [|?|ns], t as [|?|ms]; cbn [compile_arm] in X; try discriminate.
        apply andb_true_iff in X. destruct X as [X _]. apply Nat.eqb_eq in X. cbn [exec_arm moved size] in *.
        rewrite exec_tuple_ok by congruence. rewrite map_length. split; intros [Lw K]; (split; [exact Lw|]).
        * intros i ty v w Ht. apply K. apply map_nth_error; exact Ht.
        * intros i k v w Hk. rewrite nth_error_map in Hk. destruct (nth_error ll i) as [ty|] eqn:E; [|discriminate].
          injection Hk as <-. apply K; exact E.
    - cbn [exec_arm moved]. split; [congruence|intros ->; reflexivity]. }
  rewrite E. split.
  - destruct (exec_arm (into n) s t (arm_of f) vs) as [ws| |] eqn:Q; cbn [bind]; try discriminate.
    intros R; injection R as <-. exists (index_of n (map fst self)), ws. split; [reflexivity|]. split; [apply J; reflexivity|]. apply G; reflexivity.
  - intros (j & ws & -> & Hj & M). apply J in Hj; subst j. apply G in M. rewrite M. reflexivity.
Qed.
(** the documentation's example, lib.rs 12-61, with [I64] a doubled [i64] and
    the variants and members of the second enum declared in another order *)
Definition i64 : rty := TyPath [("i64", [])].
Definition of_i64 (w : string) : rty := TyPath [(w, [i64])].
Definition foo : list (string * fields) :=
  [("V1", FUnit); ("V2", FUnnamed [i64]); ("V3", FUnnamed [i64; of_i64 "Option"; of_i64 "Vec"; of_i64 "Box"]); ("V4", FNamed [("f1", i64)]);
   ("V5", FNamed [("f1", i64); ("f2", of_i64 "Option"); ("f3", of_i64 "Vec"); ("f4", of_i64 "Box")])].
Definition bar : list (string * shape) :=
  [("V5", SNamed ["f4"; "f3"; "f2"; "f1"]); ("V4", SNamed ["f1"]); ("V3", STuple 4); ("V2", STuple 1); ("V1", SUnit)].
Example C116_enum_example : exists arms, auto_from_for_enum foo = Some (BMatch arms) /\
  compile_match (shapes foo) bar arms = true /\ compile_match bar (shapes foo) arms = true /\
  exec_match (fun _ _ => double "") (shapes foo) bar arms (VEnum 4 [VInt 8; VSome (VInt 9); VSeq [VInt 10; VInt 11; VInt 12]; VInt 13]) =
    Ok (VEnum 0 [VInt 26; VSeq [VInt 20; VInt 22; VInt 24]; VSome (VInt 18); VInt 16]) /\
  exec_match (fun _ _ => double "") (shapes foo) bar arms (VEnum 0 []) = Ok (VEnum 4 []).
Proof. eexists. repeat match goal with |- _ /\ _ => split end; reflexivity. Qed.

Theorem C116_enum_back : forall into back variants target arms i vs r,
  NoDup (map fst variants) -> NoDup (map fst target) ->
  (forall n l, In (n, FNamed l) variants -> NoDup (map fst l)) -> (forall n ms, In (n, SNamed ms) target -> NoDup ms) ->
  auto_from_for_enum variants = Some (BMatch arms) ->
  (forall n, In n (map fst variants) <-> In n (map fst target)) ->
  (forall n f t, In (n, f) variants -> In (n, t) target -> alike f t) ->
  (forall n p x y, into n p x = Ok y -> back n p y = Ok x) ->
  (forall n f, nth_error variants i = Some (n, f) -> length vs = fields_len f) -> i < length variants ->
  exec_match into (shapes variants) target arms (VEnum i vs) = Ok r ->
  exec_match back target (shapes variants) arms r = Ok (VEnum i vs).
Proof.
  intros into back variants target arms i vs r N N' NF NT H S K B L Li E.
  destruct (proj2 (C116_enum_compiles variants target arms N N' NF H) (conj S K)) as [C1 C2].
  destruct (nth_error variants i) as [[n f]|] eqn:Hi; [|apply nth_error_None in Hi; lia].
  pose proof (L n f eq_refl) as Lv. pose proof (nth_error_In _ _ Hi) as If.
  assert (Ht : exists t, In (n, t) target).
  { assert (J : In n (map fst target)) by (apply S; change n with (fst (n, f)); apply in_map; exact If).
    apply in_map_iff in J. destruct J as ((m & t) & Q & J). cbn [fst] in Q; subst m; eauto. }
  destruct Ht as [t It].
  assert (Hs : nth_error (shapes variants) i = Some (n, shape_of f)) by (unfold shapes; rewrite (map_nth_error _ _ _ Hi); reflexivity).
  assert (Ns : NoDup (map fst (shapes variants))) by (rewrite shapes_names; exact N).
  assert (Is : In (n, shape_of f) (shapes variants)) by (eapply nth_error_In; exact Hs).
  assert (Sz : length vs = size (shape_of f)) by (rewrite Lv; destruct f; cbn [fields_len shape_of size]; rewrite ?map_length; reflexivity).
  assert (NDt : forall ms, t = SNamed ms -> NoDup ms) by (intros ms ->; eapply NT; exact It).
  assert (NDf : forall ms, shape_of f = SNamed ms -> NoDup ms).
  { intros ms Q. destruct f; try discriminate. injection Q as <-. eapply NF; exact If. }
  apply (C116_enum into variants arms _ _ i vs n f _ t r N Ns N' H C1 Hs It If (or_introl eq_refl) Sz NDt) in E.
  destruct E as (j & ws & -> & Hj & M). pose proof (K n f t If It) as A.
  assert (Hj' : nth_error target j = Some (n, t)).
  { rewrite nth_error_map in Hj. destruct (nth_error target j) as [[m t']|] eqn:Q; [|discriminate]. injection Hj as ->.
    apply nth_error_In in Q. pose proof (at_in _ _ _ _ N' Q). pose proof (at_in _ _ _ _ N' It). congruence. }
  assert (Sz' : length ws = size t).
  { destruct f as [l|l|], t as [|m|ms]; cbn [alike moved size] in *; try contradiction.
    - destruct M as (ns & ms' & _ & Q & Lw & _). injection Q as <-. exact Lw.
    - destruct M as [Lw _], A as [_ ->]. exact Lw.
    - subst ws; reflexivity. }
  apply (C116_enum back variants arms _ _ j ws n f t _ _ N N' Ns H C2 Hj' Is If (or_intror eq_refl) Sz' NDf).
  exists i, vs. split; [reflexivity|]. split; [rewrite shapes_names; exact (map_nth_error fst _ _ Hi)|].
  destruct f as [l|l|], t as [|m|ms]; cbn [alike moved size shape_of fields_len] in *; try contradiction.
  - destruct M as (ns & ms' & Q1 & Q2 & Lw & X). injection Q1 as <-. injection Q2 as <-. exists ms, (map fst l).
    repeat match goal with |- _ /\ _ => split end; try reflexivity; [rewrite map_length; exact Lv|].
    intros m ty v w I Hv Hw. eapply converts_back; [apply B|]. eapply X; eassumption.
  - destruct M as [Lw X]. split; [exact Lv|]. intros k ty v w Hk Hv Hw. eapply converts_back; [apply B|]. eapply X; eassumption.
  - destruct vs; [reflexivity|discriminate].
Qed.

(** ** The conversions of Convert/Conv.v are the ones the macro generates *)
Definition wrap (k : kind) (c : conv) : conv := match k with EachVec => Seq c | EachOpt => Opt c | Plain | InBox => c end.
Lemma down_wrap : forall k c v w, down (wrap k c) v = Ok w <-> converts (down c) k v w.
Proof.
  intros k c v w. rewrite <- exec_kind_ok. destruct k; reflexivity.
Qed.
Lemma down_fields_steps : forall wire vs fields ws, down_fields down wire vs fields = Ok ws <->
  Forall2 (fun x w => exists v, at_name (fst x) wire vs = Some v /\ down (snd x) v = Ok w) fields ws.
Proof.
  intros wire vs; induction fields as [|[n c] fields IH]; intros ws; cbn [down_fields].
  - split; intros H; [injection H as <-; constructor|inversion H; reflexivity].
  - split.
    + destruct (at_name n wire vs) as [v|] eqn:A; [|discriminate].
      destruct (down c v) as [b| |] eqn:E; cbn [bind]; try discriminate.
      destruct (down_fields down wire vs fields) as [bs| |] eqn:E2; cbn [bind]; try discriminate.
      intros H; injection H as <-. constructor; [exists v; auto|]. apply IH; reflexivity.
    + intros H; inversion H as [|? ? ? ? (v & A & C) F]; subst. cbn [fst snd] in *. rewrite A, C; cbn [bind]. apply IH in F. rewrite F. reflexivity.
Qed.
Definition fields_conv (c : string -> conv) (named : list (string * rty)) : list (string * conv) :=
  map (fun x => (fst x, wrap (kind_of (snd x)) (c (fst x)))) named.
(** [c] gives for every member the conversion of its parts *)
Theorem C116_struct_down : forall c named l wire vs ws,
  NoDup (map fst named) -> auto_from_for_struct_with_named_fields named = Some (BStruct l) ->
  (forall n, In n (map fst named) <-> In n wire) -> length wire = length vs ->
  (exec_named (fun n => down (c n)) wire (map fst named) l vs = Ok ws <-> down (Struct wire (fields_conv c named)) (VTup vs) = Ok (VTup ws)).
Proof.
  intros c named l wire vs ws N H S L. destruct (proj2 (C116_struct_compiles named wire l N H) S) as [_ C].
  rewrite (C116_struct _ named l _ _ vs ws H C N L). cbn [down].
  assert (Q : forall r : res unit (list val), (let* bs := r in Ok (VTup bs)) = Ok (VTup ws) <-> r = Ok ws).
  { intros [bs| |]; cbn [bind]; split; intros Q; try discriminate; injection Q as ->; reflexivity. }
  rewrite Q, down_fields_steps, forall2_nth. unfold fields_conv. rewrite !map_length. split; intros [Lw X]; (split; [exact Lw|]).
  - intros i x w Hx Hw. rewrite nth_error_map in Hx. destruct (nth_error named i) as [[n t]|] eqn:E; [|discriminate].
    injection Hx as <-. cbn [fst snd]. assert (In n wire) by (apply S; change n with (fst (n, t)); apply in_map; eapply nth_error_In; exact E).
    destruct (at_name_total _ wire vs n H0 L) as [v Hv]. exists v. split; [exact Hv|]. apply down_wrap.
    apply (X n t v w); [eapply nth_error_In; exact E|exact Hv|]. rewrite (at_name_nth _ _ _ i n N); [exact Hw|].
    rewrite nth_error_map, E. reflexivity.
  - intros n t v w I Hv Hw. apply In_nth_error in I. destruct I as [i E].
    rewrite (at_name_nth _ _ _ i n N) in Hw by (rewrite nth_error_map, E; reflexivity).
    destruct (X i (n, wrap (kind_of t) (c n)) w) as (v' & A & D); [rewrite nth_error_map, E; reflexivity|exact Hw|].
    cbn [fst snd] in *. apply down_wrap. congruence.
Qed.
Lemma up_wrap : forall k c v, has_shape k v -> converts (fun x => Ok (up c x)) k v (up (wrap k c) v).
Proof.
  intros k c v S. destruct k; cbn [wrap has_shape] in *.
  - constructor; reflexivity.
  - destruct S as [vs ->]. cbn [up]. constructor. induction vs; constructor; auto.
  - destruct S as [->|[x ->]]; cbn [up]; constructor. reflexivity.
  - constructor; reflexivity.
Qed.
Theorem C116_struct_up : forall c named l wire bs,
  NoDup (map fst named) -> NoDup wire -> auto_from_for_struct_with_named_fields named = Some (BStruct l) ->
  (forall n, In n (map fst named) <-> In n wire) -> length bs = length named ->
  (forall i n t b, nth_error named i = Some (n, t) -> nth_error bs i = Some b -> has_shape (kind_of t) b) ->
  exists ws, exec_named (fun n b => Ok (up (c n) b)) (map fst named) wire l bs = Ok ws /\
             up (Struct wire (fields_conv c named)) (VTup bs) = VTup ws.
Proof.
  intros c named l wire bs N N' H S L Sh. destruct (proj2 (C116_struct_compiles named wire l N H) S) as [C _].
  eexists. split; [|cbn [up]; reflexivity].
  apply (C116_struct _ named l); [exact H|exact C|exact N'|rewrite map_length; auto|].
  split; [apply map_length|]. intros n t v w I Hv Hw. pose proof (at_name_in _ _ _ _ _ Hw) as J.
  rewrite at_name_map in Hw by exact J. injection Hw as <-. apply In_nth_error in I. destruct I as [i E].
  rewrite (at_name_nth _ _ _ i n N) in Hv by (rewrite nth_error_map, E; reflexivity).
  rewrite (up_field_nth (fields_conv c named) bs i n (wrap (kind_of t) (c n)) v).
  - apply up_wrap. eapply Sh; eassumption.
  - unfold fields_conv. rewrite map_map. exact N.
  - unfold fields_conv. rewrite nth_error_map, E. reflexivity.
  - exact Hv.
Qed.
(** base/src/staged_ledger_diff.rs 64-69: the declaration gives the model's
    conversion of the type *)
Definition pre_diff : list (string * rty) :=
  [("completed_works", TyPath [("Vec", [TyPath [("TransactionSnarkWork", [])]])]);
   ("commands", TyPath [("Vec", [TyPath [("UserCommandWithStatus", [])]])]);
   ("coinbase", TyPath [("CoinBase", [])]);
   ("internal_command_balances", TyPath [("Vec", [TyPath [("InternalCommandBalanceData", [])]])])].
Definition pre_diff_parts (n : string) : conv :=
  if String.eqb n "completed_works" then Ver C_TransactionSnarkWork
  else if String.eqb n "commands" then Ver C_UserCommandWithStatus
  else if String.eqb n "coinbase" then Ver C_CoinBase else Ver C_InternalCommandBalanceData.
Theorem C116_pre_diff : exists l, auto_from_for_struct_with_named_fields pre_diff = Some (BStruct l) /\
  map fst l = ["coinbase"; "completed_works"; "commands"; "internal_command_balances"] /\
  forall vs ws, length vs = 4 ->
    (exec_named (fun n => down (pre_diff_parts n)) ["completed_works"; "commands"; "coinbase"; "internal_command_balances"] (map fst pre_diff) l vs = Ok ws <->
     down C_StagedLedgerPreDiff (VTup vs) = Ok (VTup ws)).
Proof.
  eexists. split; [reflexivity|]. split; [reflexivity|]. intros vs ws L.
  exact (C116_struct_down pre_diff_parts pre_diff _ ["completed_works"; "commands"; "coinbase"; "internal_command_balances"] vs ws
    (proj1 (nodupb_spec (map fst pre_diff)) eq_refl) eq_refl (fun n => iff_refl _) (eq_sym L)).
Qed.

(** ** Versioned target types *)
Definition wrapped (vs : list Z) (t : val) : val := fold_left (fun t v => VTup [VInt v; t]) vs t.
Theorem C116_versioned : forall from vs x,
  (into_versioned from vs x = None <-> 4 < length vs) /\
  (forall r, into_versioned from vs x = Some r -> r = let* t := from x in Ok (wrapped vs t)).
Proof.
  intros from vs x. destruct vs as [|a [|b [|c [|d [|e vs]]]]]; cbn [into_versioned length]; (split; [split; [discriminate || (intros _; lia)|lia || reflexivity]|]);
    intros r H; try discriminate; injection H as <-; [destruct (from x)| | | |]; reflexivity.
Qed.
(** Reading drops the numbers, whatever they are. *)
Theorem C116_versioned_back : forall from vs t,
  (of_versioned from (length vs) (wrapped vs t) = None <-> 4 < length vs) /\
  (length vs <= 4 -> of_versioned from (length vs) (wrapped vs t) = Some (from t)).
Proof.
  intros from vs t. destruct vs as [|a [|b [|c [|d [|e vs]]]]]; cbn [of_versioned length]; (split; [split; [discriminate || (intros _; lia)|lia || reflexivity]|]);
    intros L; try lia; reflexivity.
Qed.
Example C116_versioned_example :
  into_versioned (double "") [1%Z; 2%Z] (VInt 5) = Some (Ok (VTup [VInt 2; VTup [VInt 1; VInt 10]])) /\
  of_versioned (double "") 2 (VTup [VInt 7; VTup [VInt 9; VInt 5]]) = Some (Ok (VInt 10)).
Proof. split; reflexivity. Qed.

Print Assumptions C116_output.
Print Assumptions C116_kind.
Print Assumptions C116_struct_compiles.
Print Assumptions C116_struct.
Print Assumptions C116_struct_panics.
Print Assumptions C116_struct_back.
Print Assumptions C116_tuple_compiles.
Print Assumptions C116_tuple.
Print Assumptions C116_tuple_panics.
Print Assumptions C116_enum_compiles.
Print Assumptions C116_empty_variant_refuted.
Print Assumptions C116_no_members_refuted.
Print Assumptions C116_enum.
Print Assumptions C116_enum_back.
Print Assumptions C116_struct_down.
Print Assumptions C116_struct_up.
Print Assumptions C116_pre_diff.
Print Assumptions C116_versioned.
Print Assumptions C116_versioned_back.

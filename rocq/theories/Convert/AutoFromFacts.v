(** Facts about the code that [AutoFrom] generates.  [converts] and [fails] say
    for one member what the conversion is to do, without the model's evaluator. *)

From Coq Require Import String ZArith List Bool Arith Lia Permutation.
From Verif Require Import Lib.Res BinProt.Codec Convert.Conv Convert.ConvFacts.
From Verif Require Import Convert.AutoFrom.
Import ListNotations.
Local Open Scope string_scope.
Local Open Scope list_scope.
Local Open Scope nat_scope.

Inductive converts (f : val -> res unit val) : kind -> val -> val -> Prop :=
| cv_plain : forall v w, f v = Ok w -> converts f Plain v w
| cv_box : forall v w, f v = Ok w -> converts f InBox v w
| cv_vec : forall vs ws, Forall2 (fun v w => f v = Ok w) vs ws -> converts f EachVec (VSeq vs) (VSeq ws)
| cv_none : converts f EachOpt VNone VNone
| cv_some : forall v w, f v = Ok w -> converts f EachOpt (VSome v) (VSome w).
(** a vector where the type says [Vec], an option where it says [Option] *)
Definition has_shape (k : kind) (v : val) : Prop :=
  match k with
  | EachVec => exists vs, v = VSeq vs
  | EachOpt => v = VNone \/ exists x, v = VSome x
  | _ => True
  end.
Inductive fails (f : val -> res unit val) : kind -> val -> Prop :=
| fl_plain : forall v, f v = Panic -> fails f Plain v
| fl_box : forall v, f v = Panic -> fails f InBox v
| fl_vec : forall vs v, In v vs -> f v = Panic -> fails f EachVec (VSeq vs)
| fl_some : forall v, f v = Panic -> fails f EachOpt (VSome v).

Lemma down_all_ok : forall f vs ws, down_all f vs = Ok ws <-> Forall2 (fun v w => f v = Ok w) vs ws.
Proof.
  intros f; induction vs as [|v vs IH]; intros ws; cbn [down_all].
  - split; intros H; [injection H as <-; constructor|inversion H; reflexivity].
  - split.
    + destruct (f v) as [b| |] eqn:E; cbn [bind]; try discriminate.
      destruct (down_all f vs) as [bs| |] eqn:E2; cbn [bind]; try discriminate.
      intros H; injection H as <-; constructor; [exact E|]. apply IH; reflexivity.
    + intros H; inversion H as [|? ? ? ? E F]; subst. rewrite E; cbn [bind]. apply IH in F. rewrite F. reflexivity.
Qed.
Lemma exec_kind_ok : forall k f v w, exec_kind k f v = Ok w <-> converts f k v w.
Proof.
  intros k f v w; split.
  - destruct k; [intros H; constructor; exact H| | |intros H; constructor; exact H].
    + destruct v; cbn [exec_kind]; try discriminate. unfold rmap.
      destruct (down_all f vs) eqn:E; try discriminate.
      intros H; injection H as <-. constructor. apply down_all_ok; exact E.
    + destruct v; cbn [exec_kind]; try discriminate.
      * intros H; injection H as <-; constructor.
      * unfold rmap. destruct (f v) eqn:E; try discriminate. intros H; injection H as <-. constructor; exact E.
  - intros H; destruct H as [v w H|v w H|vs ws H| |v w H]; cbn [exec_kind]; try exact H; try reflexivity.
    + apply down_all_ok in H. rewrite H. reflexivity.
    + rewrite H. reflexivity.
Qed.
Definition total_or_panic (f : val -> res unit val) : Prop := forall v, f v <> Err tt.
Lemma down_all_panic : forall f vs, total_or_panic f -> (down_all f vs = Panic <-> exists v, In v vs /\ f v = Panic) /\ down_all f vs <> Err tt.
Proof.
  intros f vs T; induction vs as [|v vs [IH IH2]]; cbn [down_all].
  - split; [|discriminate]. split; [discriminate|intros (x & [] & _)].
  - pose proof (T v) as Tv. destruct (f v) as [b|e|] eqn:E; cbn [bind].
    + destruct (down_all f vs) as [bs|e|] eqn:E2; cbn [bind].
      * split; [|discriminate]. split; [discriminate|]. intros (x & [<-|I] & P); [congruence|].
        assert (X : @Ok unit (list val) bs = Panic) by (apply IH; eauto). discriminate.
      * destruct e; congruence.
      * split; [|discriminate]. split; [|reflexivity]. intros _. destruct (proj1 IH eq_refl) as (x & I & P).
        exists x; split; [right; exact I|exact P].
    + destruct e; congruence.
    + split; [|discriminate]. split; [|reflexivity]. intros _. exists v; split; [left; reflexivity|exact E].
Qed.
Lemma exec_kind_panic : forall k f v, total_or_panic f -> has_shape k v ->
  (exec_kind k f v = Panic <-> fails f k v) /\ exec_kind k f v <> Err tt.
Proof.
  intros k f v T S; destruct k; cbn [exec_kind has_shape] in *.
  - split; [|apply T]. split; [intros H; constructor; exact H|intros H; inversion H; assumption].
  - destruct S as [vs ->]. destruct (down_all_panic f vs T) as [P N]. unfold rmap.
    destruct (down_all f vs) as [bs|[]|].
    + split; [|discriminate]. split; [discriminate|]. intros H; inversion H; subst.
      assert (X : @Ok unit (list val) bs = Panic) by (apply P; eauto). discriminate.
    + congruence.
    + split; [|discriminate]. split; [|reflexivity]. intros _. destruct (proj1 P eq_refl) as (x & I & Q). econstructor; eauto.
  - destruct S as [->|[x ->]].
    + split; [|discriminate]. split; [discriminate|intros H; inversion H].
    + unfold rmap. pose proof (T x) as Tx. destruct (f x) as [b|[]|] eqn:E.
      * split; [|discriminate]. split; [discriminate|]. intros H; inversion H; congruence.
      * congruence.
      * split; [|discriminate]. split; [|reflexivity]. intros _; constructor; exact E.
  - split; [|apply T]. split; [intros H; constructor; exact H|intros H; inversion H; assumption].
Qed.

Lemma mem_spec : forall n l, mem n l = true <-> In n l.
Proof.
  intros n l; unfold mem; rewrite existsb_exists; split.
  - intros (x & I & E). apply String.eqb_eq in E; subst; exact I.
  - intros I. exists n; split; [exact I|apply String.eqb_refl].
Qed.
Lemma nodupb_spec : forall l, nodupb l = true <-> NoDup l.
Proof.
  induction l as [|n l IH]; cbn [nodupb]; [split; constructor|].
  rewrite andb_true_iff, negb_true_iff, IH. split.
  - intros [M N]; constructor; [|exact N]. intros I; apply mem_spec in I; congruence.
  - intros N; inversion N as [|? ? I N']; subst; split; [|exact N'].
    destruct (mem n l) eqn:E; [|reflexivity]. apply mem_spec in E; contradiction.
Qed.
Lemma compile_named_spec : forall src self l, compile_named src self l = true <->
  NoDup (map fst l) /\ incl (map fst l) src /\ (forall n, In n (map fst l) <-> In n self).
Proof.
  intros src self l; unfold compile_named. rewrite !andb_true_iff, nodupb_spec, !forallb_forall. split.
  - intros [[[A B] C] D]. split; [exact D|]. split; [intros n I; apply mem_spec, A, I|].
    intros n; split; intros I; apply mem_spec; [apply B|apply C]; exact I.
  - intros (D & A & B). repeat match goal with |- _ /\ _ => split end; try exact D;
      intros n I; apply mem_spec; [apply A|apply B|apply B]; exact I.
Qed.

Lemma at_name_in : forall A names (l : list A) n a, at_name n names l = Some a -> In n names.
Proof.
  intros A names l n a E; destruct (at_name_index _ _ _ _ _ E) as [H _].
  apply nth_error_In in H; exact H.
Qed.
Lemma at_name_total : forall A names (l : list A) n, In n names -> length names = length l -> exists a, at_name n names l = Some a.
Proof.
  induction names as [|m names IH]; intros l n I L; [destruct I|]. destruct l as [|a l]; [discriminate|].
  cbn [at_name]. destruct (String.eqb m n) eqn:E; [eauto|]. apply IH; [|cbn in L; lia].
  destruct I as [->|I]; [rewrite String.eqb_refl in E; discriminate|exact I].
Qed.
Lemma eval_named_ok : forall into src vs l bs, eval_named into src vs l = Ok bs <->
  Forall2 (fun x b => exists v, at_name (fst x) src vs = Some v /\ converts (into (fst x)) (snd x) v b) l bs.
Proof.
  intros into src vs; induction l as [|[n k] l IH]; intros bs; cbn [eval_named].
  - split; intros H; [injection H as <-; constructor|inversion H; reflexivity].
  - split.
    + destruct (at_name n src vs) as [v|] eqn:A; [|discriminate].
      destruct (exec_kind k (into n) v) as [b| |] eqn:E; cbn [bind]; try discriminate.
      destruct (eval_named into src vs l) as [bs'| |] eqn:E2; cbn [bind]; try discriminate.
      intros H; injection H as <-. constructor; [|apply IH; reflexivity].
      exists v; split; [exact A|apply exec_kind_ok; exact E].
    + intros H; inversion H as [|? ? ? ? (v & A & C) F]; subst. cbn [fst snd] in *.
      rewrite A. apply exec_kind_ok in C; rewrite C; cbn [bind]. apply IH in F; rewrite F. reflexivity.
Qed.
Lemma map_fill : forall A (g : string -> A) self ws, NoDup self -> length ws = length self ->
  (forall n w, at_name n self ws = Some w -> g n = w) -> map g self = ws.
Proof.
  intros A g; induction self as [|n self IH]; intros ws N L H; destruct ws as [|w ws]; try discriminate; [reflexivity|].
  inversion N as [|? ? I N']; subst. cbn [map]. f_equal.
  - apply H. cbn [at_name]. rewrite String.eqb_refl. reflexivity.
  - apply IH; [exact N'|cbn in L; lia|]. intros m x E. apply H. cbn [at_name].
    destruct (String.eqb n m) eqn:Q; [|exact E]. apply String.eqb_eq in Q; subst.
    apply at_name_in in E; contradiction.
Qed.
Lemma forall2_at : forall (P : string * kind -> val -> Prop) l bs n k, NoDup (map fst l) -> Forall2 P l bs -> In (n, k) l ->
  exists b, at_name n (map fst l) bs = Some b /\ P (n, k) b.
Proof.
  intros P l bs n k N F; induction F as [|[m j] b l bs H F IH]; intros I; [destruct I|].
  cbn [map fst] in N |- *. inversion N as [|? ? X N']; subst. cbn [at_name]. destruct I as [Q|I].
  - injection Q as -> ->. rewrite String.eqb_refl. eauto.
  - destruct (String.eqb m n) eqn:Q; [|apply IH; assumption]. apply String.eqb_eq in Q; subst.
    exfalso; apply X. change n with (fst (n, k)). apply in_map; exact I.
Qed.

Theorem exec_named_ok : forall into src self l vs ws,
  compile_named src self l = true -> NoDup self -> length src = length vs ->
  (exec_named into src self l vs = Ok ws <->
   length ws = length self /\
   forall n k v w, In (n, k) l -> at_name n src vs = Some v -> at_name n self ws = Some w -> converts (into n) k v w).
Proof.
  intros into src self l vs ws C N L. apply compile_named_spec in C. destruct C as (D & I & S). unfold exec_named. split.
  - destruct (eval_named into src vs l) as [bs| |] eqn:E; cbn [bind]; try discriminate.
    intros H; injection H as <-. apply eval_named_ok in E. split; [unfold arrange; apply map_length|].
    intros n k v w Hin Hv Hw. destruct (forall2_at _ _ _ n k D E Hin) as (b & Hb & v' & Hv' & Hc). cbn [fst snd] in *.
    assert (In n self) by (apply S; change n with (fst (n, k)); apply in_map; exact Hin).
    unfold arrange in Hw. rewrite at_name_map in Hw by assumption. rewrite Hb in Hw. congruence.
  - intros [Lw H].
    assert (E : eval_named into src vs l = Ok (map (fun x => match at_name (fst x) self ws with Some w => w | None => VUnit end) l)).
    { apply eval_named_ok. clear - H I S L Lw.
      assert (G : forall x, In x l -> exists v w, at_name (fst x) src vs = Some v /\ at_name (fst x) self ws = Some w /\ converts (into (fst x)) (snd x) v w).
      { intros [n k] Hin. assert (In n (map fst l)) by (change n with (fst (n, k)); apply in_map; exact Hin).
        destruct (at_name_total _ src vs n (I n H0) L) as [v Hv].
        destruct (at_name_total _ self ws n (proj1 (S n) H0) (eq_sym Lw)) as [w Hw]. exists v, w. cbn [fst snd]. eauto. }
      clear - G. induction l as [|x l IH]; [constructor|]. cbn [map]. constructor; [|apply IH; intros; apply G; right; assumption].
      destruct (G x (or_introl eq_refl)) as (v & w & A & B & C). rewrite B. eauto. }
    rewrite E; cbn [bind]. f_equal. unfold arrange. apply map_fill; [exact N|exact Lw|].
    intros n w Hw. pose proof (at_name_in _ _ _ _ _ Hw) as Hs. apply S in Hs.
    assert (X : at_name n (map fst l) (map (fun x => match at_name (fst x) self ws with Some w => w | None => VUnit end) l)
                = Some (match at_name n self ws with Some w => w | None => VUnit end)).
    { rewrite <- (map_map fst (fun m => match at_name m self ws with Some w => w | None => VUnit end)).
      apply (at_name_map _ _ (fun m => match at_name m self ws with Some w => w | None => VUnit end)); exact Hs. }
    rewrite X, Hw. reflexivity.
Qed.

Lemma eval_named_panic : forall into src vs l, (forall n, total_or_panic (into n)) -> incl (map fst l) src -> length src = length vs ->
  (forall n k v, In (n, k) l -> at_name n src vs = Some v -> has_shape k v) ->
  (eval_named into src vs l = Panic <-> exists n k v, In (n, k) l /\ at_name n src vs = Some v /\ fails (into n) k v) /\
  eval_named into src vs l <> Err tt.
Proof.
  intros into src vs l T; induction l as [|[n k] l IH]; intros I L S; cbn [eval_named].
  - split; [|discriminate]. split; [discriminate|intros (n & k & v & [] & _)].
  - destruct (at_name_total _ src vs n (I n (or_introl eq_refl)) L) as [v Hv]. rewrite Hv.
    destruct (exec_kind_panic k (into n) v (T n) (S n k v (or_introl eq_refl) Hv)) as [P Q].
    destruct IH as [IH1 IH2]; [intros x Hx; apply I; right; exact Hx|exact L|intros; eapply S; [right|]; eassumption|].
    destruct (exec_kind k (into n) v) as [b|[]|] eqn:E; cbn [bind]; [|congruence|].
    + destruct (eval_named into src vs l) as [bs|[]|]; cbn [bind]; [|congruence|].
      * split; [|discriminate]. split; [discriminate|]. intros (m & j & x & [X|X] & Hx & F).
        -- injection X as -> ->. replace x with v in F by congruence. apply P in F. discriminate.
        -- assert (Z : @Ok unit (list val) bs = Panic) by (apply IH1; exists m, j, x; auto). discriminate.
      * split; [|discriminate]. split; [|reflexivity]. intros _. destruct (proj1 IH1 eq_refl) as (m & j & x & X & Hx & F).
        exists m, j, x; split; [right; exact X|auto].
    + split; [|discriminate]. split; [|reflexivity]. intros _. exists n, k, v. split; [left; reflexivity|]. split; [exact Hv|]. apply P; reflexivity.
Qed.

(** The four lists together hold what the declaration holds. *)
Definition kinds (named : list (string * rty)) : list (string * kind) := map (fun x => (fst x, kind_of (snd x))) named.
Definition joined (q : list string * list string * list string * list string) : list (string * kind) :=
  match q with (p, v, o, b) => with_kind Plain p ++ with_kind EachVec v ++ with_kind EachOpt o ++ with_kind InBox b end.
Lemma with_kind_app : forall k a b, with_kind k (a ++ b) = with_kind k a ++ with_kind k b.
Proof. intros; apply map_app. Qed.
Lemma sort_fields_perm : forall named p v o b,
  Permutation (joined (sort_fields named p v o b)) (joined (p, v, o, b) ++ kinds named).
Proof.
  induction named as [|[n t] named IH]; intros p v o b; cbn [sort_fields kinds map fst snd].
  - rewrite app_nil_r. reflexivity.
  - destruct (kind_of t); rewrite IH; cbn [joined]; rewrite with_kind_app; cbn [with_kind map]; rewrite <- !app_assoc;
      fold (with_kind Plain p) (with_kind EachVec v) (with_kind EachOpt o) (with_kind InBox b) (kinds named);
      repeat apply Permutation_app_head; cbn [app].
    + rewrite ?app_assoc. apply Permutation_middle.
    + rewrite ?app_assoc. apply Permutation_middle.
    + rewrite ?app_assoc. apply Permutation_middle.
    + reflexivity.
Qed.

(** ** By position *)
Lemma positions_spec : forall named s, positions named s = s ++ combine (seq (length s) (length named)) (map kind_of named).
Proof.
  induction named as [|t named IH]; intros s; cbn [positions length seq map combine]; [rewrite app_nil_r; reflexivity|].
  rewrite IH, <- app_assoc, app_length. cbn [app length]. rewrite Nat.add_1_r. reflexivity.
Qed.
Lemma exec_tuple_steps : forall into vs l ws, exec_tuple into l vs = Ok ws <->
  Forall2 (fun x w => exists v, nth_error vs (fst x) = Some v /\ converts (into (fst x)) (snd x) v w) l ws.
Proof.
  intros into vs; induction l as [|[i k] l IH]; intros ws; cbn [exec_tuple].
  - split; intros H; [injection H as <-; constructor|inversion H; reflexivity].
  - split.
    + destruct (nth_error vs i) as [v|] eqn:A; [|discriminate].
      destruct (exec_kind k (into i) v) as [b| |] eqn:E; cbn [bind]; try discriminate.
      destruct (exec_tuple into l vs) as [bs'| |] eqn:E2; cbn [bind]; try discriminate.
      intros H; injection H as <-. constructor; [|apply IH; reflexivity].
      exists v; split; [exact A|apply exec_kind_ok; exact E].
    + intros H; inversion H as [|? ? ? ? (v & A & C) F]; subst. cbn [fst snd] in *.
      rewrite A. apply exec_kind_ok in C; rewrite C; cbn [bind]. apply IH in F; rewrite F. reflexivity.
Qed.
Lemma forall2_nth : forall A B (P : A -> B -> Prop) l k, Forall2 P l k <->
  length k = length l /\ forall i a b, nth_error l i = Some a -> nth_error k i = Some b -> P a b.
Proof.
  intros A B P; induction l as [|a l IH]; intros k; split.
  - intros H; inversion H; subst. split; [reflexivity|]. intros [|i] ? ? E; discriminate.
  - intros [L _]. destruct k; [constructor|discriminate].
  - intros H; inversion H as [|? b ? k' H1 H2]; subst. apply IH in H2. destruct H2 as [L N]. split; [cbn [length]; lia|].
    intros [|i] x y; cbn [nth_error]; [congruence|apply N].
  - intros [L N]. destruct k as [|b k]; [discriminate|]. constructor; [apply (N 0); reflexivity|].
    apply IH. split; [cbn [length] in L; lia|]. intros i x y; apply (N (S i)).
Qed.
Lemma nth_combine_seq : forall A (ks : list A) s i, nth_error (combine (seq s (length ks)) ks) i =
  match nth_error ks i with Some k => Some (s + i, k) | None => None end.
Proof.
  induction ks as [|k ks IH]; intros s i; cbn [length seq combine]; [destruct i; reflexivity|].
  destruct i as [|i]; cbn [nth_error]; [rewrite Nat.add_0_r; reflexivity|]. rewrite IH, Nat.add_succ_r. reflexivity.
Qed.
Theorem exec_tuple_ok : forall into ks vs ws, length vs = length ks ->
  (exec_tuple into (combine (seq 0 (length ks)) ks) vs = Ok ws <->
   length ws = length ks /\
   forall i k v w, nth_error ks i = Some k -> nth_error vs i = Some v -> nth_error ws i = Some w -> converts (into i) k v w).
Proof.
  intros into ks vs ws L. rewrite exec_tuple_steps, forall2_nth.
  rewrite combine_length, seq_length, Nat.min_id. split; intros [Lw H]; (split; [exact Lw|]).
  - intros i k v w Hk Hv Hw. destruct (H i (i, k) w) as (v' & A & C); [rewrite nth_combine_seq, Hk; reflexivity|exact Hw|].
    cbn [fst snd] in *. congruence.
  - intros i x w Hx Hw. rewrite nth_combine_seq in Hx. destruct (nth_error ks i) as [k|] eqn:Hk; [|discriminate].
    injection Hx as <-. cbn [fst snd plus]. destruct (nth_error vs i) as [v|] eqn:Hv.
    + exists v; split; [reflexivity|]. eapply H; eassumption.
    + exfalso. apply nth_error_None in Hv. assert (nth_error ks i <> None) by congruence. apply nth_error_Some in H0. lia.
Qed.
Lemma exec_tuple_panic : forall into ks vs, (forall i, total_or_panic (into i)) -> length vs = length ks ->
  (forall i k v, nth_error ks i = Some k -> nth_error vs i = Some v -> has_shape k v) ->
  (exec_tuple into (combine (seq 0 (length ks)) ks) vs = Panic <->
   exists i k v, nth_error ks i = Some k /\ nth_error vs i = Some v /\ fails (into i) k v).
Proof.
  intros into ks vs T L S.
  assert (G : forall l, (forall i k, In (i, k) l -> exists v, nth_error vs i = Some v /\ has_shape k v) ->
    (exec_tuple into l vs = Panic <-> exists i k v, In (i, k) l /\ nth_error vs i = Some v /\ fails (into i) k v) /\ exec_tuple into l vs <> Err tt).
  { induction l as [|[i k] l IH]; intros H; cbn [exec_tuple].
    - split; [|discriminate]. split; [discriminate|intros (i & k & v & [] & _)].
    - destruct (H i k (or_introl eq_refl)) as (v & Hv & Sv). rewrite Hv.
      destruct (exec_kind_panic k (into i) v (T i) Sv) as [P Q].
      destruct IH as [IH1 IH2]; [intros; apply H; right; assumption|].
      destruct (exec_kind k (into i) v) as [b|[]|] eqn:E; cbn [bind]; [|congruence|].
      + destruct (exec_tuple into l vs) as [bs|[]|]; cbn [bind]; [|congruence|].
        * split; [|discriminate]. split; [discriminate|]. intros (m & j & x & [X|X] & Hx & F).
          -- injection X as -> ->. replace x with v in F by congruence. apply P in F. discriminate.
          -- assert (Z : @Ok unit (list val) bs = Panic) by (apply IH1; exists m, j, x; auto). discriminate.
        * split; [|discriminate]. split; [|reflexivity]. intros _. destruct (proj1 IH1 eq_refl) as (m & j & x & X & Hx & F).
          exists m, j, x; split; [right; exact X|auto].
      + split; [|discriminate]. split; [|reflexivity]. intros _. exists i, k, v. split; [left; reflexivity|]. split; [exact Hv|]. apply P; reflexivity. }
  assert (I : forall i k, In (i, k) (combine (seq 0 (length ks)) ks) <-> nth_error ks i = Some k).
  { intros i k. split; intros H.
    - apply In_nth_error in H. destruct H as [j H]. rewrite nth_combine_seq in H. destruct (nth_error ks j) eqn:E; [|discriminate].
      injection H as <- <-. exact E.
    - apply (nth_error_In _ i). rewrite nth_combine_seq, H. reflexivity. }
  destruct (G (combine (seq 0 (length ks)) ks)) as [G1 _].
  { intros i k Hi. apply I in Hi. destruct (nth_error vs i) as [v|] eqn:Hv; [eauto|].
    exfalso. apply nth_error_None in Hv. assert (X : nth_error ks i <> None) by congruence. apply nth_error_Some in X. lia. }
  rewrite G1. split; intros (i & k & v & A & B); exists i, k, v; (split; [apply I; exact A|exact B]).
Qed.

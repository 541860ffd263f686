(** Reading and writing documents against the relations of JsonViewSpec.v. *)

From Coq Require Import String ZArith List Bool Lia ZifyBool ZifyNat.
From Verif Require Import Lib.Res Lib.Bytes Lib.Decimal Lib.Text BinProt.Codec BinProt.CodecSpec BinProt.PrimSpec BinProt.CodecProps Wire.Types
  Text.Base58 Text.Base58Props Text.Base64 Text.Base64Props Text.Checksum Text.ChecksumProps Text.FieldText Text.Numbers Text.NumbersSpec
  Text.NumbersProps Json.Json Json.JsonSpec Json.JsonFacts Json.JsonReadFacts Json.JsonProps GraphQL.GraphQLSpec.
From Verif Require Import Convert.JsonViewSpec.
Import ListNotations.
Local Open Scope list_scope.
Local Open Scope Z_scope.
Local Notation length := List.length.

(** ** Lists *)
Lemma forall2_length : forall A B (P : A -> B -> Prop) l l', Forall2 P l l' -> length l = length l'.
Proof. intros A B P l l' H. induction H; cbn [length]; auto. Qed.
Lemma app_same : forall A (a b c d : list A), a ++ b = c ++ d -> length a = length c -> a = c.
Proof. induction a as [|x a IH]; intros b [|y c] d E L; try discriminate L; [reflexivity|]. injection E as -> E. f_equal. eapply IH; [exact E|]. injection L as L. exact L. Qed.
Lemma forall2_nth_in : forall A B (P : A -> B -> Prop) l l' a, Forall2 P l l' -> In a l -> exists b, In b l' /\ P a b.
Proof. intros A B P l l' a H. induction H as [|x y l l' X H IH]; intros []; [subst; eexists; split; [left; reflexivity|exact X]|]. destruct IH as (b & I & Y); [assumption|]. exists b. split; [right|]; assumption. Qed.
Lemma distinct_arr : forall l, distinct (JArr l) -> Forall distinct l.
Proof. induction l as [|j l IH]; intros H; [constructor|]. destruct H as (A & As). constructor; auto. Qed.
Lemma distinct_obj : forall m, distinct (JObj m) -> NoDup (map fst m) /\ Forall (fun p => distinct (snd p)) m.
Proof.
  intros m (N & A). split; [exact N|]. clear N. induction m as [|(k, j) m IH]; [constructor|]. destruct A as (A & As). constructor; auto.
Qed.
Definition doc (j : json) : Prop := json_ok j /\ distinct j.
Lemma doc_arr : forall l, doc (JArr l) -> Forall doc l /\ Z.of_nat (length l) < 2 ^ 63.
Proof.
  intros l (J & D). apply arr_ok in J. apply distinct_arr in D. destruct J as (L & J). split; [|exact L].
  rewrite Forall_forall in *. intros x I. split; auto.
Qed.
Lemma doc_obj : forall m, doc (JObj m) -> NoDup (map fst m) /\ forall k j, In (k, j) m -> doc j.
Proof.
  intros m (J & D). apply obj_ok in J. apply distinct_obj in D. destruct D as (N & D). split; [exact N|]. rewrite Forall_forall in *.
  intros k j I. split; [apply (J _ I)|apply (D _ I)].
Qed.
Lemma has_in : forall j k x, has j k x -> exists m, j = JObj m /\ In (str_bytes k, x) m.
Proof. intros j k x (a & b & -> & _). eexists. split; [reflexivity|]. apply in_or_app. right. left. reflexivity. Qed.
Lemma doc_has : forall j k x, doc j -> has j k x -> doc x.
Proof. intros j k x D H. apply has_in in H. destruct H as (m & -> & I). apply doc_obj in D. destruct D as (_ & D). eapply D, I. Qed.
Lemma doc_parts : forall any names j xs, doc j -> parts any names j xs -> Forall doc xs.
Proof.
  intros any names j xs D [P|(_ & ->)]; [|apply doc_arr in D; apply D].
  induction P as [|n x names xs H P IH]; constructor; [eapply doc_has; eassumption|exact IH].
Qed.

Lemma assoc_unique : forall A B (m : list (A * B)) k x y, NoDup (map fst m) -> In (k, x) m -> In (k, y) m -> x = y.
Proof.
  induction m as [|(k', z) m IH]; intros k x y N I I'; [destruct I|]. cbn [map fst] in N. inversion N; subst.
  destruct I as [I|I], I' as [I'|I']; try congruence.
  - injection I as -> ->. exfalso. apply H1. apply (in_map fst) in I'. exact I'.
  - injection I' as -> ->. exfalso. apply H1. apply (in_map fst) in I. exact I.
  - eapply IH; eassumption.
Qed.

(** ** Objects *)
Section Objects.
  Variable f : list Z -> json -> option (res jerr val).
  Hypothesis known : forall k x y, f k x = None -> f k y = None.
  Lemma obj_first : forall m r k v, obj_loop f m = Ok r -> assoc k r = Some v ->
    exists a x b, m = a ++ (k, x) :: b /\ ~ In k (map fst a) /\ f k x = Some (Ok v).
  Proof.
    induction m as [|(k', x) m IH]; intros r k v H A; cbn [obj_loop] in H; [injection H as <-; discriminate|].
    destruct (f k' x) as [w|] eqn:F.
    - apply bind_ok in H. destruct H as (u & W & H). apply bind_ok in H. destruct H as (r' & L & H). injection H as <-. cbn [assoc] in A.
      destruct (key_eqb k' k) eqn:K.
      + apply key_eqb_iff in K. subst k'. injection A as ->. exists [], x, m. split; [reflexivity|]. split; [intros []|]. congruence.
      + destruct (IH r' k v L A) as (a & y & b & -> & N & Y). exists ((k', x) :: a), y, b. split; [reflexivity|]. split; [|exact Y].
        cbn [map fst]. intros [E|I]; [subst k'; rewrite key_eqb_refl in K; discriminate|contradiction].
    - destruct (IH r k v H A) as (a & y & b & -> & N & Y). exists ((k', x) :: a), y, b. split; [reflexivity|]. split; [|exact Y].
      cbn [map fst]. intros [E|I]; [|contradiction]. subst k'. rewrite (known _ _ y F) in Y. discriminate.
  Qed.
  Lemma obj_assoc : forall a m r k x b v, obj_loop f m = Ok r -> m = a ++ (k, x) :: b -> ~ In k (map fst a) -> f k x = Some (Ok v) -> assoc k r = Some v.
  Proof using Type.
    induction a as [|(k', y) a IH]; intros m r k x b v H -> N F; cbn [app obj_loop] in H.
    - rewrite F in H. cbn [bind] in H. apply bind_ok in H. destruct H as (r' & L & H). injection H as <-. cbn [assoc]. now rewrite key_eqb_refl.
    - cbn [map fst] in N. destruct (f k' y) as [w|].
      + apply bind_ok in H. destruct H as (u & W & H). apply bind_ok in H. destruct H as (r' & L & H). injection H as <-. cbn [assoc].
        rewrite key_neqb by (intros E; apply N; left; exact E). apply (IH _ r' k x b v L eq_refl); [intros I; apply N; right; exact I|exact F].
      + apply (IH _ r k x b v H eq_refl); [intros I; apply N; right; exact I|exact F].
  Qed.
  Lemma obj_total : forall m, (forall k x, In (k, x) m -> f k x = None \/ exists v, f k x = Some (Ok v)) -> exists r, obj_loop f m = Ok r.
  Proof using Type.
    induction m as [|(k, x) m IH]; intros H; [eexists; reflexivity|]. cbn [obj_loop].
    destruct IH as (r & R); [intros k' x' I; apply H; right; exact I|].
    destruct (H k x) as [E|(v & E)]; [left; reflexivity| |]; rewrite E; [eauto|]. cbn [bind]. rewrite R. cbn [bind]. eauto.
  Qed.
End Objects.

(** ** One type at a time *)

(** What is read, what is certainly read, what is written: whether other forms
    are allowed, and which texts are amounts. *)
Inductive mode : Type := Taken | Exact | Written.
Definition other (m : mode) : bool := match m with Written => false | _ => true end.
Definition understood (m : mode) : list Z -> Z -> Prop := match m with Taken => sane_amount | _ => plain_amount end.
Definition dl {A : Type} (R : mode -> json -> A -> Prop) (m : mode) (j : json) (l : list A) : Prop := exists js, j = JArr js /\ Forall2 (R m) js l.
Section Read.
  Variable checked : bool.
  Notation sha := sha_checksum.
  Notation read := (jde checked sha (from_address sha)).
  Notation write := (jser checked sha (into_address sha)).
  Notation sread := (jde_seq checked sha (from_address sha)).
  Notation swrite := (jser_flds checked sha (into_address sha)).
  Notation fread := (fld_de checked sha (from_address sha)).

  Definition rs {A : Type} (d : dty) (R : json -> A -> Prop) (W : val -> A -> Prop) : Prop := forall j v a, read d j = Ok v -> W v a -> R j a.
  Definition ws {A : Type} (d : dty) (R : json -> A -> Prop) (W : val -> A -> Prop) : Prop := forall j v a, write d v = Ok j -> W v a -> R j a.
  Definition cs {A : Type} (d : dty) (R : json -> A -> Prop) (W : val -> A -> Prop) : Prop :=
    forall j a, doc j -> R j a -> exists v, read d j = Ok v /\ W v a.
  Definition det {A : Type} (W : val -> A -> Prop) : Prop := forall v a a', W v a -> W v a' -> a = a'.
  (** all four *)
  Definition says {A : Type} (d : dty) (R : mode -> json -> A -> Prop) (W : val -> A -> Prop) : Prop :=
    rs d (R Taken) W /\ ws d (R Written) W /\ cs d (R Exact) W /\ det W.

  (** a version number, any *)
  Definition wv {A : Type} (W : val -> A -> Prop) (v : val) (a : A) : Prop := exists n w, v = VTup [VInt n; w] /\ W w a.
  Lemma rs_ver : forall A d R (W : val -> A -> Prop), rs d R W -> rs (DV d) R (wv W).
  Proof. intros A d R W H j v a E (n & w & -> & X). cbn [jde] in E. apply bind_ok in E. destruct E as (u & E & [= <- <-]). eapply H; eassumption. Qed.
  Lemma ws_ver : forall A d R (W : val -> A -> Prop), ws d R W -> ws (DV d) R (wv W).
  Proof. intros A d R W H j v a E (n & w & -> & X). cbn [jser] in E. eapply H; eassumption. Qed.
  Lemma says_ver : forall A d R (W : val -> A -> Prop), says d R W -> says (DV d) R (wv W).
  Proof.
    intros A d R W (H1 & H2 & H3 & H4). split; [apply rs_ver, H1|]. split; [apply ws_ver, H2|]. split.
    - intros j a D X. destruct (H3 j a D X) as (v & E & Y). exists (VTup [VInt 1; v]). cbn [jde]. rewrite E. split; [reflexivity|]. exists 1, v. auto.
    - intros v a a' (n & w & -> & X) (n' & w' & [= <- <-] & X'). eapply H4; eassumption.
  Qed.
  Lemma says_leaf : forall A l (R : json -> A -> Prop) (W : val -> A -> Prop), leaf_wf l = true -> (forall v a, W v a -> rust_val (leaf_ty l) v /\ key_ok l v) ->
    (forall s v a, leaf_de checked sha (from_address sha) l s = Ok v -> W v a -> R (JStr s) a) ->
    (forall j a, doc j -> R j a -> exists s v, j = JStr s /\ leaf_de checked sha (from_address sha) l s = Ok v /\ W v a) -> det W ->
    says (DLeaf l) (fun _ => R) W.
  Proof using Type.
    intros A l R W L T H1 H2 D. split; [|split; [|split; [|exact D]]].
    - intros j v a E X. destruct j; try discriminate. eapply H1; eassumption.
    - intros j v a E X. destruct (T v a X) as (T1 & T2). cbn [jser] in E. apply rmap_ok in E. destruct E as (s & E & ->).
      destruct (leaf_back checked sha (into_address sha) (from_address sha) sha_checksum_len sha_checksum_bytes sha_addr_back l v L T1 T2) as (s' & S & B).
      rewrite E in S. injection S as <-. eapply H1; eassumption.
    - intros j a J X. destruct (H2 j a J X) as (s & v & -> & E & Y). exists v. auto.
  Qed.

  Lemma says_bool : says DBool (fun _ => d_bool true) (fun v b => v = VBool b).
  Proof using Type.
    split; [|split; [|split]].
    - intros j v a E ->. destruct j; try discriminate. injection E as ->. reflexivity.
    - intros j v a E ->. cbn [jser] in E. injection E as <-. reflexivity.
    - intros j a _ X. unfold d_bool in X. subst j. exists (VBool a). split; reflexivity.
    - intros v a a' -> [= ->]. reflexivity.
  Qed.
  Lemma rs_list : forall A d (R : mode -> json -> A -> Prop) W, rs d (R Taken) W ->
    rs (DVec d) (dl R Taken) (fun v l => exists vs, v = VSeq vs /\ Forall2 W vs l).
  Proof using Type.
    intros A d R W H j v l E (vs & -> & F). destruct j; try discriminate. cbn [jde] in E. apply rmap_ok in E. destruct E as (us & E & [= <-]).
    eexists. split; [reflexivity|]. revert l0 E. induction F as [|v a vs l X F IH]; intros js E; destruct js as [|j js]; cbn [mapM] in E.
    - constructor.
    - apply bind_ok in E. destruct E as (u & _ & E). apply bind_ok in E. destruct E as (us & _ & E). discriminate.
    - discriminate.
    - apply bind_ok in E. destruct E as (u & E1 & E). apply bind_ok in E. destruct E as (us & E2 & [= -> ->]). constructor; [eapply H; eassumption|auto].
  Qed.
  Lemma ws_list : forall A d (R : mode -> json -> A -> Prop) W, ws d (R Written) W ->
    ws (DVec d) (dl R Written) (fun v l => exists vs, v = VSeq vs /\ Forall2 W vs l).
  Proof using Type.
    intros A d R W H j v l E (vs & -> & F). cbn [jser] in E. apply rmap_ok in E. destruct E as (js & E & ->).
    exists js. split; [reflexivity|]. revert js E. induction F as [|v a vs l X F IH]; intros js E; cbn [mapM] in E.
    - injection E as <-. constructor.
    - apply bind_ok in E. destruct E as (u & E1 & E). apply bind_ok in E. destruct E as (us & E2 & [= <-]). constructor; [eapply H; eassumption|auto].
  Qed.
  Lemma says_list : forall A d (R : mode -> json -> A -> Prop) W, says d R W ->
    says (DVec d) (dl R) (fun v l => exists vs, v = VSeq vs /\ Forall2 W vs l).
  Proof using Type.
    intros A d R W (H1 & H2 & H3 & H4). split; [apply rs_list, H1|]. split; [apply ws_list, H2|]. split.
    - intros j l D (js & -> & F). apply doc_arr in D. destruct D as (D & _). cbn [jde].
      enough (X : exists vs, mapM (read d) js = Ok vs /\ Forall2 W vs l).
      { destruct X as (vs & E & X). exists (VSeq vs). rewrite E. split; [reflexivity|eauto]. }
      induction F as [|j a js l X F IH]; [exists []; split; [reflexivity|constructor]|]. inversion D as [|? ? D1 D2]; subst.
      destruct (H3 j a D1 X) as (v & E & Y). destruct (IH D2) as (vs & Es & Ys). exists (v :: vs). cbn [mapM]. rewrite E. cbn [bind].
      rewrite Es. cbn [bind]. split; [reflexivity|constructor; assumption].
    - intros v l l' (vs & -> & F) (vs' & [= <-] & F'). revert l' F'. induction F as [|v a vs l X F IH]; intros l' F'; inversion F'; subst; [reflexivity|].
      f_equal; [eapply H4; eassumption|auto].
  Qed.

  (** ** Structs: a list of members and a tail that JSON does not have *)
  Record mem (A : Type) : Type := mk_mem
    { m_name : string; m_d : dty; m_B : Type; m_R : mode -> json -> m_B -> Prop; m_W : val -> m_B -> Prop; m_p : A -> m_B }.
  Arguments m_name {A}. Arguments m_d {A}. Arguments m_B {A}. Arguments m_R {A}. Arguments m_W {A}. Arguments m_p {A}.
  Fixpoint skips (fs : flds) : Prop := match fs with FNil => True | FCons _ (Some _) _ fs => skips fs | _ => False end.
  Fixpoint flds_of {A : Type} (ms : list (mem A)) (tail : flds) : flds :=
    match ms with [] => tail | f :: ms => FCons (m_name f) None (m_d f) (flds_of ms tail) end.
  Definition sR {A : Type} (ms : list (mem A)) (m : mode) (j : json) (a : A) : Prop :=
    exists xs, parts (other m) (map m_name ms) j xs /\ Forall2 (fun f x => m_R f m x (m_p f a)) ms xs.
  Definition sW {A : Type} (ms : list (mem A)) (v : val) (a : A) : Prop :=
    exists vs ts, v = VTup (vs ++ ts) /\ Forall2 (fun f v => m_W f v (m_p f a)) ms vs.
  Definition names {A : Type} (ms : list (mem A)) : list (list Z) := map (fun f => str_bytes (m_name f)) ms.

  Lemma skip_known : forall tail k x, skips tail -> fread tail k x = None.
  Proof using Type. induction tail as [|nm [y|] d tail IH]; intros k x S; try contradiction; [reflexivity|]. cbn [fld_de]. auto. Qed.
  Lemma fread_known : forall A (ms : list (mem A)) tail k x y, skips tail -> fread (flds_of ms tail) k x = None -> fread (flds_of ms tail) k y = None.
  Proof using Type.
    induction ms as [|f ms IH]; intros tail k x y S H; cbn [flds_of fld_de] in *; [apply skip_known, S|].
    destruct (key_eqb _ _); [discriminate|]. eapply IH; eassumption.
  Qed.
  Lemma fread_at : forall A (ms : list (mem A)) tail f x, NoDup (names ms) -> In f ms -> fread (flds_of ms tail) (str_bytes (m_name f)) x = Some (read (m_d f) x).
  Proof using Type.
    induction ms as [|g ms IH]; intros tail f x N I; [destruct I|]. cbn [flds_of fld_de]. inversion N as [|? ? N1 N2]; subst. destruct I as [->|I].
    - now rewrite key_eqb_refl.
    - rewrite key_neqb; [apply IH; assumption|]. intros E. apply N1. rewrite E. apply (in_map (fun f => str_bytes (m_name f))). exact I.
  Qed.
  Lemma fread_inv : forall A (ms : list (mem A)) tail k x, skips tail -> fread (flds_of ms tail) k x = None \/ exists f, In f ms /\ k = str_bytes (m_name f).
  Proof using Type.
    induction ms as [|g ms IH]; intros tail k x S; cbn [flds_of fld_de]; [left; apply skip_known, S|].
    destruct (key_eqb _ _) eqn:K; [apply key_eqb_iff in K; right; exists g; split; [left; reflexivity|auto]|].
    destruct (IH tail k x S) as [E|(f & I & E)]; [left; exact E|right; exists f; split; [right; exact I|exact E]].
  Qed.
  Lemma seq_tail : forall tail l vs, skips tail -> sread tail l = Ok vs -> l = [].
  Proof using Type.
    induction tail as [|nm [y|] d tail IH]; intros l vs S H; try contradiction; cbn [jde_seq] in H.
    - destruct l; [reflexivity|discriminate].
    - apply bind_ok in H. destruct H as (us & H & _). eapply IH; eassumption.
  Qed.
  Lemma seq_tail_ok : forall tail, skips tail -> exists ts, sread tail [] = Ok ts.
  Proof using Type.
    induction tail as [|nm [y|] d tail IH]; intros S; try contradiction; cbn [jde_seq]; [eauto|]. destruct (IH S) as (ts & E). rewrite E. cbn [bind]. eauto.
  Qed.
  Lemma asm_tail : forall tail r, skips tail -> exists ts, assemble tail r = Ok ts.
  Proof using Type.
    induction tail as [|nm [y|] d tail IH]; intros r S; try contradiction; cbn [assemble]; [eauto|]. destruct (IH r S) as (ts & E). rewrite E. cbn [bind]. eauto.
  Qed.
  Lemma asm_inv : forall A (ms : list (mem A)) tail r vs, Forall (fun f => missing (m_d f) = None) ms -> assemble (flds_of ms tail) r = Ok vs ->
    exists us ts, vs = us ++ ts /\ Forall2 (fun f u => assoc (str_bytes (m_name f)) r = Some u) ms us.
  Proof using Type.
    induction ms as [|f ms IH]; intros tail r vs M H; cbn [flds_of] in H; [exists [], vs; split; [reflexivity|constructor]|].
    cbn [assemble] in H. inversion M as [|? ? M1 M2]; subst. apply bind_ok in H. destruct H as (u & U & H). apply bind_ok in H. destruct H as (ws & H & [= <-]).
    destruct (IH tail r ws M2 H) as (us & ts & -> & F). exists (u :: us), ts. split; [reflexivity|]. constructor; [|exact F].
    destruct (assoc _ r); [congruence|]. rewrite M1 in U. discriminate.
  Qed.
  Lemma asm_ok : forall A (ms : list (mem A)) tail r us, skips tail -> Forall2 (fun f u => assoc (str_bytes (m_name f)) r = Some u) ms us ->
    exists ts, assemble (flds_of ms tail) r = Ok (us ++ ts).
  Proof using Type.
    intros A ms tail r us S F. induction F as [|f u ms us X F IH]; cbn [flds_of]; [apply asm_tail, S|].
    destruct IH as (ts & E). exists ts. cbn [assemble]. rewrite X. cbn [bind]. rewrite E. reflexivity.
  Qed.
  Lemma seq_inv : forall A (ms : list (mem A)) tail l vs, skips tail -> sread (flds_of ms tail) l = Ok vs ->
    exists us ts, vs = us ++ ts /\ Forall2 (fun f p => read (m_d f) (fst p) = Ok (snd p)) ms (combine l us) /\ length l = length us /\ length us = length ms.
  Proof using Type.
    induction ms as [|f ms IH]; intros tail l vs S H; cbn [flds_of] in H.
    - pose proof (seq_tail _ _ _ S H) as ->. exists [], vs. split; [reflexivity|]. split; [constructor|auto].
    - cbn [jde_seq] in H. destruct l as [|j l]; [discriminate|]. apply bind_ok in H. destruct H as (u & U & H). apply bind_ok in H. destruct H as (ws & H & [= <-]).
      destruct (IH tail l ws S H) as (us & ts & -> & F & L & L'). exists (u :: us), ts. split; [reflexivity|]. cbn [combine length]. split; [constructor; assumption|auto].
  Qed.
  Lemma s_rs : forall A (ms : list (mem A)) tail, nodupb (names ms) = true -> skips tail ->
    Forall (fun f => rs (m_d f) (m_R f Taken) (m_W f) /\ missing (m_d f) = None) ms -> rs (DStruct (flds_of ms tail)) (sR ms Taken) (sW ms).
  Proof using Type.
    intros A ms tail N S H j v a E (vs & ts & -> & F). apply nodupb_iff in N.
    assert (X : exists xs, parts true (map m_name ms) j xs /\ exists us, Forall2 (fun f p => read (m_d f) (fst p) = Ok (snd p)) ms (combine xs us) /\ length xs = length us /\
      exists ts', vs ++ ts = us ++ ts' /\ length us = length ms).
    { destruct j as [| | | | |l|m]; try discriminate; cbn [jde] in E.
      - apply rmap_ok in E. destruct E as (ws & E & E'). injection E' as <-. apply seq_inv in E; [|exact S]. destruct E as (us & ts' & E & F' & L & L').
        exists l. split; [right; auto|]. exists us. split; [exact F'|]. split; [exact L|]. eauto.
      - apply bind_ok in E. destruct E as (r & O & E). apply rmap_ok in E. destruct E as (ws & E & E'). injection E' as <-.
        apply asm_inv in E; [|rewrite Forall_forall in *; intros f I; apply (H f I)]. destruct E as (us & ts' & E & F').
        assert (G : forall f u, In f ms -> assoc (str_bytes (m_name f)) r = Some u -> exists x, has (JObj m) (m_name f) x /\ read (m_d f) x = Ok u).
        { intros f u I As. destruct (obj_first _ (fun k x y => fread_known A ms tail k x y S) m r _ u O As) as (p & x & q & -> & Np & Fr).
          exists x. split; [exists p, q; auto|]. rewrite (fread_at A ms tail f x N I) in Fr. injection Fr as Fr. exact Fr. }
        assert (Y : exists xs, Forall2 (has (JObj m)) (map m_name ms) xs /\ Forall2 (fun f p => read (m_d f) (fst p) = Ok (snd p)) ms (combine xs us) /\ length xs = length us).
        { clear F N H E O. revert G. induction F' as [|f u ms us X F' IH]; intros G; [exists []; split; [constructor|split; [constructor|reflexivity]]|].
          destruct (G f u) as (x & Hx & Rx); [left; reflexivity|exact X|]. destruct IH as (xs & A1 & A2 & A3); [intros g w I; apply G; right; exact I|].
          exists (x :: xs). cbn [map combine length]. split; [constructor; assumption|]. split; [constructor; assumption|auto]. }
        destruct Y as (xs & A1 & A2 & A3). exists xs. split; [left; exact A1|]. exists us. split; [exact A2|]. split; [exact A3|]. exists ts'. split; [exact E|].
        apply forall2_length in F'. auto. }
    destruct X as (xs & P & us & Q & L & ts' & E' & L'). exists xs. split; [exact P|].
    assert (vs = us) as <- by (eapply app_same; [exact E'|]; apply forall2_length in F; lia).
    clear P E E' N L'. revert xs L Q. induction F as [|f v ms vs X F IH]; intros xs L Q; destruct xs as [|x xs]; try discriminate L; [constructor|].
    cbn [combine] in Q. inversion Q as [|? ? ? ? Q1 Q2]; subst. inversion H as [|? ? (H1 & _) H2]; subst. cbn [fst snd] in Q1.
    constructor; [eapply H1; eassumption|]. apply IH; [exact H2|cbn [length] in L; lia|exact Q2].
  Qed.
  Lemma s_ws : forall A (ms : list (mem A)) tail, nodupb (names ms) = true -> skips tail ->
    Forall (fun f => ws (m_d f) (m_R f Written) (m_W f)) ms -> ws (DStruct (flds_of ms tail)) (sR ms Written) (sW ms).
  Proof using Type.
    intros A ms tail N S H j v a E (vs & ts & -> & F). apply nodupb_iff in N. cbn [jser] in E. apply rmap_ok in E. destruct E as (m & E & ->).
    assert (X : exists xs r, m = combine (names ms) xs ++ r /\ length xs = length ms /\ Forall2 (fun f x => m_R f Written x (m_p f a)) ms xs).
    { clear N. revert m E. induction F as [|f v ms vs X F IH]; intros m E; [exists [], m; split; [reflexivity|split; [reflexivity|constructor]]|].
      cbn [flds_of app jser_flds] in E. inversion H as [|? ? H1 H2]; subst. apply bind_ok in E. destruct E as (x & Ex & E). apply bind_ok in E. destruct E as (m' & E & [= <-]).
      destruct (IH H2 m' E) as (xs & r & -> & L & G). exists (x :: xs), r. split; [reflexivity|]. split; [cbn [length]; auto|]. constructor; [eapply H1; eassumption|exact G]. }
    destruct X as (xs & r & -> & L & G). exists xs. split; [|exact G]. left. clear E F G H.
    enough (K : forall pre, NoDup (map fst pre ++ names ms) -> Forall2 (has (JObj (pre ++ combine (names ms) xs ++ r))) (map m_name ms) xs) by exact (K [] N).
    clear N. revert xs L. induction ms as [|f ms IH]; intros xs L pre N; destruct xs as [|x xs]; try discriminate L; [constructor|]. cbn [map names combine app] in *. constructor.
    - exists pre, (combine (names ms) xs ++ r). split; [reflexivity|]. apply NoDup_remove_2 in N. intros I. apply N. apply in_or_app. left. exact I.
    - fold (names ms) in *. replace (pre ++ (str_bytes (m_name f), x) :: combine (names ms) xs ++ r) with ((pre ++ [(str_bytes (m_name f), x)]) ++ combine (names ms) xs ++ r) by (rewrite <- app_assoc; reflexivity).
      apply IH; [cbn [length] in L; lia|]. rewrite map_app, <- app_assoc. exact N.
  Qed.
  Lemma s_cs : forall A (ms : list (mem A)) tail, nodupb (names ms) = true -> ms <> [] -> skips tail ->
    Forall (fun f => cs (m_d f) (m_R f Exact) (m_W f)) ms -> cs (DStruct (flds_of ms tail)) (sR ms Exact) (sW ms).
  Proof using Type.
    intros A ms tail N NE S H j a D (xs & P & F). apply nodupb_iff in N. pose proof (doc_parts _ _ _ _ D P) as Dx.
    assert (X : exists us, Forall2 (fun f p => read (m_d f) (fst p) = Ok (snd p)) ms (combine xs us) /\ length xs = length us /\ Forall2 (fun f v => m_W f v (m_p f a)) ms us).
    { clear P N D NE. induction F as [|f x ms xs X F IH]; [exists []; split; [constructor|split; [reflexivity|constructor]]|].
      inversion H as [|? ? H1 H2]; subst. inversion Dx as [|? ? D1 D2]; subst. destruct (H1 x _ D1 X) as (u & U & W). destruct (IH H2 D2) as (us & A1 & A2 & A3).
      exists (u :: us). cbn [combine length]. split; [constructor; assumption|]. split; [auto|constructor; assumption]. }
    destruct X as (us & A1 & A2 & A3). destruct P as [P|(_ & ->)].
    - assert (J : exists m, j = JObj m).
      { destruct ms as [|f ms]; [contradiction|]. inversion P as [|? ? ? ? X ?]; subst. apply has_in in X. destruct X as (m & -> & _). eauto. }
      destruct J as (m & ->). apply doc_obj in D. destruct D as (Nm & _).
      assert (G : Forall2 (fun f u => exists x, has (JObj m) (m_name f) x /\ read (m_d f) x = Ok u) ms us).
      { clear F N H Dx A3 NE. revert xs P A1 A2. revert us. induction ms as [|f ms IH]; intros us xs P A1 A2; destruct xs as [|x xs]; inversion P; subst;
          destruct us as [|u us]; try discriminate A2; [constructor|]. cbn [combine] in A1. inversion A1; subst. constructor; [exists x; auto|].
        eapply IH; [eassumption|eassumption|cbn [length] in A2; lia]. }
      assert (O : exists r, obj_loop (fread (flds_of ms tail)) m = Ok r).
      { apply obj_total. intros k y I. destruct (fread_inv A ms tail k y S) as [E|(f & If & ->)]; [left; exact E|right].
        destruct (forall2_nth_in _ _ _ _ _ f G If) as (u & _ & x & (p & q & E & _) & Rx). injection E as ->.
        assert (y = x) as ->.
        { apply (assoc_unique _ _ _ _ _ _ Nm I). apply in_or_app. right. left. reflexivity. }
        exists u. rewrite (fread_at A ms tail f x N If). f_equal. exact Rx. }
      destruct O as (r & O).
      assert (Q : Forall2 (fun f u => assoc (str_bytes (m_name f)) r = Some u) ms us).
      { assert (K : forall f u, In f ms -> (exists x, has (JObj m) (m_name f) x /\ read (m_d f) x = Ok u) -> assoc (str_bytes (m_name f)) r = Some u).
        { intros f u If (x & (p & q & E & Np) & Rx). injection E as E. eapply obj_assoc; [exact O|exact E|exact Np|]. rewrite (fread_at A ms tail f x N If). f_equal. exact Rx. }
        clear - G K. induction G as [|f u ms us X G IH]; constructor; [apply K; [left; reflexivity|exact X]|]. apply IH. intros g w I. apply K. right. exact I. }
      destruct (asm_ok A ms tail r us S Q) as (ts & E).
      change (read (DStruct (flds_of ms tail)) (JObj m)) with (let* r := obj_loop (fread (flds_of ms tail)) m in rmap VTup (assemble (flds_of ms tail) r)).
      rewrite O. cbn [bind]. rewrite E. eexists. split; [reflexivity|]. exists us, ts. auto.
    - enough (X : exists ts, sread (flds_of ms tail) xs = Ok (us ++ ts)).
      { destruct X as (ts & X). change (read (DStruct (flds_of ms tail)) (JArr xs)) with (rmap VTup (sread (flds_of ms tail) xs)). rewrite X. eexists. split; [reflexivity|]. exists us, ts. auto. }
      clear F N NE D Dx H. revert xs A1 A2. induction A3 as [|f u ms us W A3 IH]; intros xs A1 A2; destruct xs as [|x xs]; try discriminate A2; cbn [flds_of].
      + apply seq_tail_ok, S.
      + cbn [combine] in A1. inversion A1 as [|? ? ? ? B1 B2]; subst. destruct (IH xs B2) as (ts & E); [cbn [length] in A2; lia|]. exists ts.
        change (sread (FCons (m_name f) None (m_d f) (flds_of ms tail)) (x :: xs)) with (let* v := read (m_d f) x in let* vs := sread (flds_of ms tail) xs in Ok (v :: vs)).
        cbn [fst snd] in B1. rewrite B1. cbn [bind]. rewrite E. reflexivity.
  Qed.
  Lemma s_det : forall A (ms : list (mem A)), Forall (fun f => det (m_W f)) ms ->
    (forall a a', Forall (fun f => m_p f a = m_p f a') ms -> a = a') -> det (sW ms).
  Proof using Type.
    intros A ms H X v a a' (vs & ts & -> & F) (vs' & ts' & E & F'). apply X. injection E as E.
    apply app_same in E; [|apply forall2_length in F; apply forall2_length in F'; lia]. subst vs'. clear X.
    induction F as [|f v ms vs Y F IH]; inversion F' as [|? ? ? ? Y' F'']; subst; inversion H as [|? ? H1 H2]; subst; constructor; [eapply H1; eassumption|auto].
  Qed.
  Lemma s_says : forall A (ms : list (mem A)), nodupb (names ms) = true -> ms <> [] ->
    Forall (fun f => says (m_d f) (m_R f) (m_W f) /\ missing (m_d f) = None) ms ->
    (forall a a', Forall (fun f => m_p f a = m_p f a') ms -> a = a') -> says (DStruct (flds_of ms FNil)) (sR ms) (sW ms).
  Proof using Type.
    intros A ms N NE H X. split; [|split; [|split]].
    - apply s_rs; [exact N|exact I|]. eapply Forall_impl; [|exact H]. intros f ((H1 & _) & M). auto.
    - apply s_ws; [exact N|exact I|]. eapply Forall_impl; [|exact H]. intros f ((_ & H1 & _) & M). auto.
    - apply s_cs; [exact N|exact NE|exact I|]. eapply Forall_impl; [|exact H]. intros f ((_ & _ & H1 & _) & M). auto.
    - apply s_det; [|exact X]. eapply Forall_impl; [|exact H]. intros f ((_ & _ & _ & H1) & M). auto.
  Qed.
End Read.
Arguments mk_mem {A}. Arguments m_name {A}. Arguments m_d {A}. Arguments m_B {A}. Arguments m_R {A}. Arguments m_W {A}. Arguments m_p {A}.

(* Proofs about dict2object, part 2: the round trip. *)
From Coq Require Import Lia Floats.SpecFloat.
From Coq Require Import ZifyBool ZifyNat ZifyN.
From Verif Require Import PyBase PyBaseFacts LineModel D2oModel D2oSpec D2oProofs.

Section Table.
Context (ct : table).

(** * The converters, with the conversion of what is inside as an argument *)

Definition dump_all (F : value -> res value) : list value -> res (list value) :=
  fix go (l : list value) : res (list value) :=
    match l with [] => Ok [] | x :: r => y <- F x ;; r' <- go r ;; Ok (y :: r') end.
Definition dump_zip (F : value -> ty -> res value) : list value -> list ty -> res (list value) :=
  fix go (l : list value) (us : list ty) {struct l} : res (list value) :=
    match l, us with
    | x :: r, u :: us => y <- F x u ;; r' <- go r us ;; Ok (y :: r')
    | _, _ => Ok []
    end.
Definition dump_fields (F : value -> ty -> res value) (all : list field)
  : list field -> list value -> res (list (pystr * value)) :=
  fix go (fs : list field) (vals : list value) {struct vals} : res (list (pystr * value)) :=
    match fs, vals with
    | f :: fs, x :: r =>
        if is_default ct f x then go fs r
        else
          match find_field (f_name f) all with
          | None => Err KeyError
          | Some g => y <- F x (f_type g) ;; r' <- go fs r ;; Ok ((f_name f, y) :: r')
          end
    | _, _ => Ok []
    end.
Definition dump (F : value -> ty -> res value) (b : basic) (v : value) : res value :=
  match b with
  | BNoop _ => Ok v
  | BList u | BVarTuple u =>
      match v with VList l | VTuple l => l' <- dump_all (fun x => F x u) l ;; Ok (VList l') | _ => Err TypeError end
  | BTuple us =>
      match v with VList l | VTuple l => l' <- dump_zip F l us ;; Ok (VList l') | _ => Err TypeError end
  | BEnum _ => match v with VEnum _ m => Ok (VStr m) | _ => Err AttributeError end
  | BTypeName _ => match v with VType c => Ok (VStr (c_name (class_of_id ct c))) | _ => Err AttributeError end
  | BAttrs c =>
      match v with
      | VObj c' vals => kvs <- dump_fields F (fields_of ct c) (fields_of ct c') vals ;; Ok (VDict kvs)
      | _ => Err TypeError
      end
  end.
Definition add_tag (tag : option pystr) (r : value) : res value :=
  match tag with
  | None => Ok r
  | Some n => match r with VDict kvs => Ok (VDict (dict_set str_eqb TYPE_KEY (VStr n) kvs)) | _ => Err TypeError end
  end.
Lemma to_dict_eq (v : value) (t : ty) :
  to_dict ct v t =
    (c <- create ct t ;; ' (b, tag) <- choose_to_dict ct c v ;; r <- dump (to_dict ct) b v ;; add_tag tag r).
Proof. destruct v; reflexivity. Qed.

Definition load_fields (G : value -> ty -> res value) (all : list field)
  : list (pystr * value) -> list (pystr * value) -> res (list (pystr * value)) :=
  fix go (kvs : list (pystr * value)) (acc : list (pystr * value)) {struct kvs} : res (list (pystr * value)) :=
    match kvs with
    | [] => Ok acc
    | (k, x) :: r =>
        if str_eqb k TYPE_KEY then go r acc
        else
          match find_field k all with
          | None => Err KeyError
          | Some f => y <- G x (f_type f) ;; go r (dict_set str_eqb (strip_one_underscore k) y acc)
          end
    end.
(* what iterating gives *)
Definition items (d : value) : option (list value) :=
  match d with
  | VList l | VTuple l => Some l
  | VStr s => Some (map (fun c => VStr [c]) s)
  | VDict kvs => Some (map (fun kv => VStr (fst kv)) kvs)
  | _ => None
  end.
Definition load (G : value -> ty -> res value) (b : basic) (d : value) : res value :=
  match b with
  | BNoop _ => Ok d
  | BList u | BVarTuple u =>
      match items d with
      | Some l =>
          l' <- dump_all (fun x => G x u) l ;; Ok (match b with BList _ => VList l' | _ => VTuple l' end)
      | None => Err TypeError
      end
  | BTuple us =>
      match items d with Some l => l' <- dump_zip G l us ;; Ok (VTuple l') | None => Err TypeError end
  | BEnum e =>
      match d with
      | VStr s =>
          match lookup e (t_enums ct) with
          | Some ms => if existsb (str_eqb s) ms then Ok (VEnum e s) else Err KeyError
          | None => Err KeyError
          end
      | _ => Err KeyError
      end
  | BTypeName types =>
      match d with
      | VStr s => match lookup s types with Some c => Ok (VType c) | None => Err KeyError end
      | _ => Err KeyError
      end
  | BAttrs c =>
      match d with
      | VDict kvs => kwargs <- load_fields G (fields_of ct c) kvs [] ;; init ct c kwargs
      | _ => Err AttributeError
      end
  end.
(* the member of a union that is chosen by a type makes values of that type *)
Lemma lookup_type_found {A} (k : pytype) (l : list (pytype * A)) (v : A) :
  lookup_type k l = Some v -> In (k, v) l.
Proof.
  induction l as [|(k', v') l IH]; cbn; [discriminate|]. destruct (pytype_eqb k k') eqn:E; [|auto].
  intros [= ->]. left. f_equal. destruct k, k'; cbn in E; try discriminate; try reflexivity;
    apply str_eqb_eq in E; congruence.
Qed.
Lemma type_set_in {A} (k : pytype) (v : A) (l : list (pytype * A)) e :
  In e (dict_set pytype_eqb k v l) -> e = (k, v) \/ In e l \/ (exists k', pytype_eqb k k' = true /\ e = (k', v)).
Proof.
  induction l as [|(k', v') l IH]; cbn; [intros [<-|[]]; auto|]. destruct (pytype_eqb k k') eqn:E.
  - intros [<-|I]; [|auto]. right. right. exists k'. auto.
  - intros [<-|I]; [auto|]. destruct (IH I) as [?|[?|?]]; auto.
Qed.
Lemma setup_multi_types (l : list ty) : forall d o dicts u,
  setup_multi ct l d o dicts = Ok u ->
  (forall k b, In (k, b) o -> k = converted_type b) -> forall k b, In (k, b) (u_obj u) -> k = converted_type b.
Proof.
  induction l as [|t l IH]; intros d o dicts u; cbn.
  - destruct (new_disambiguator ct dicts _); cbn; [|discriminate]. intros [= <-]. cbn. auto.
  - destruct (create_basic ct t) as [b|]; cbn; [|discriminate].
    destruct (pytype_eqb (converted_type b) YDict); [apply IH|].
    unfold add_typed_subconverter. destruct (lookup_type (converted_type b) d); cbn; [discriminate|].
    intros H F. refine (IH _ _ _ _ H _). intros k x I. apply type_set_in in I.
    destruct I as [[= -> ->]|[I|(k' & E & [= -> ->])]]; [reflexivity|auto|].
    destruct (converted_type b), k'; cbn in E; try discriminate; try reflexivity; apply str_eqb_eq in E; congruence.
Qed.
Lemma union_string (ts : list ty) (u : union) (b : basic) (s : pystr) :
  new_union ct ts = Ok u -> choose_to_object ct (Union u) (VStr s) = Ok b -> converted_type b = YStr.
Proof.
  unfold new_union. intros H. cbn. destruct (lookup_type YStr (u_obj u)) as [b'|] eqn:E; [|discriminate].
  intros [= ->]. symmetry. apply lookup_type_found in E.
  refine (setup_multi_types _ _ _ _ _ H _ _ _ E). intros k x [].
Qed.

Lemma mapM_dump_all {A} (F : value -> res value) (f : A -> value) (l : list A) :
  mapM (fun c => F (f c)) l = dump_all F (map f l).
Proof. induction l as [|c l IH]; cbn; [reflexivity|]. destruct (F (f c)); cbn; [rewrite IH|]; reflexivity. Qed.
Lemma mapM_dump_zip {A} (F : value -> ty -> res value) (f : A -> value) (l : list A) : forall us,
  mapM (fun cu => F (f (fst cu)) (snd cu)) (combine l us) = dump_zip F (map f l) us.
Proof.
  induction l as [|c l IH]; intros [|u us]; cbn; try reflexivity.
  destruct (F (f c) u); cbn; [rewrite IH|]; reflexivity.
Qed.
Lemma mapM_same {A B} (f g : A -> res B) (l : list A) : (forall x, f x = g x) -> mapM f l = mapM g l.
Proof. intros H. induction l as [|x l IH]; cbn; [reflexivity|]. rewrite H, IH. reflexivity. Qed.

Lemma str_to_object_eq (s : pystr) (t : ty) : to_object ct (VStr s) t = str_to_object ct s t.
Proof.
  destruct t; try reflexivity.
  - cbn. assert (E : mapM (fun cu => str_to_object ct [fst cu] (snd cu)) (combine s ts) =
      (fix go (us : list ty) (s0 : list N) {struct us} : res (list value) :=
        match us with
        | [] => Ok []
        | u :: us0 => match s0 with
                      | [] => Ok []
                      | c :: r => y <- str_to_object ct [c] u ;; r' <- go us0 r ;; Ok (y :: r')
                      end
        end) ts s).
    { revert s. induction ts as [|u ts IH]; intros [|c s]; try reflexivity. cbn [combine]. cbn [mapM fst snd].
      destruct (str_to_object ct [c] u); cbn; [rewrite IH|]; reflexivity. }
    rewrite E. reflexivity.
  - cbn -[new_union]. destruct (c_subclasses (class_of_id ct c)).
    + destruct (c_fields (class_of_id ct c)); reflexivity.
    + destruct (new_union ct [TClass c]) as [u|] eqn:E; cbn -[new_union]; [|reflexivity].
      destruct (lookup_type YStr (u_obj u)) as [b|] eqn:L; cbn; [|reflexivity].
      pose proof (union_string _ u b s E) as Y. cbn in Y. rewrite L in Y. specialize (Y eq_refl).
      destruct b; cbn in Y; try discriminate; reflexivity.
  - cbn -[new_union]. destruct (new_union ct ts) as [u|] eqn:E; cbn -[new_union]; [|reflexivity].
    destruct (lookup_type YStr (u_obj u)) as [b|] eqn:L; cbn; [|reflexivity].
    pose proof (union_string _ u b s E) as Y. cbn in Y. rewrite L in Y. specialize (Y eq_refl).
    destruct b; cbn in Y; try discriminate; reflexivity.
Qed.
Lemma to_object_eq (d : value) (t : ty) :
  to_object ct d t = (c <- create ct t ;; b <- choose_to_object ct c d ;; load (to_object ct) b d).
Proof.
  destruct d; try reflexivity;
    cbn -[choose_to_object]; destruct (create ct t) as [c|]; cbn -[choose_to_object]; try reflexivity;
    destruct (choose_to_object ct c _) as [b|]; cbn [bind]; try reflexivity; destruct b; try reflexivity; cbn [load items].
  - rewrite <- mapM_dump_all.
    rewrite (mapM_same (fun c => to_object ct (VStr [c]) t0) (fun c => str_to_object ct [c] t0)) by (intros x; apply str_to_object_eq). reflexivity.
  - rewrite <- mapM_dump_all.
    rewrite (mapM_same (fun c => to_object ct (VStr [c]) t0) (fun c => str_to_object ct [c] t0)) by (intros x; apply str_to_object_eq). reflexivity.
  - rewrite <- (mapM_dump_zip (to_object ct) (fun c : N => VStr [c])).
    rewrite (mapM_same (fun cu => to_object ct (VStr [fst cu]) (snd cu)) (fun cu => str_to_object ct [fst cu] (snd cu))) by (intros x; apply str_to_object_eq). reflexivity.
  - rewrite <- mapM_dump_all.
    rewrite (mapM_same (fun kv => to_object ct (VStr (fst kv)) t0) (fun kv => str_to_object ct (fst kv) t0)) by (intros x; apply str_to_object_eq). reflexivity.
  - rewrite <- mapM_dump_all.
    rewrite (mapM_same (fun kv => to_object ct (VStr (fst kv)) t0) (fun kv => str_to_object ct (fst kv) t0)) by (intros x; apply str_to_object_eq). reflexivity.
  - rewrite <- (mapM_dump_zip (to_object ct) (fun kv : pystr * value => VStr (fst kv))).
    rewrite (mapM_same (fun cu => to_object ct (VStr (fst (fst cu))) (snd cu)) (fun cu => str_to_object ct (fst (fst cu)) (snd cu))) by (intros x; apply str_to_object_eq). reflexivity.
Qed.

(** * Induction on values *)

Lemma value_rect' (P : value -> Prop)
  (Hbool : forall b, P (VBool b)) (Hint : forall i, P (VInt i)) (Hfloat : forall f, P (VFloat f))
  (Hstr : forall s, P (VStr s)) (Hnone : P VNone)
  (Hlist : forall l, Forall P l -> P (VList l)) (Htuple : forall l, Forall P l -> P (VTuple l))
  (Hdict : forall l, P (VDict l)) (Henum : forall e m, P (VEnum e m)) (Htype : forall c, P (VType c))
  (Hobj : forall c l, Forall P l -> P (VObj c l)) : forall v, P v.
Proof.
  fix IH 1.
  intros [b|i|f|s| |l|l|l|e m|c|c l];
    [apply Hbool|apply Hint|apply Hfloat|apply Hstr|exact Hnone| | |apply Hdict|apply Henum|apply Htype|].
  - apply Hlist. induction l as [|x l IHl]; constructor; [apply IH|exact IHl].
  - apply Htuple. induction l as [|x l IHl]; constructor; [apply IH|exact IHl].
  - apply Hobj. induction l as [|x l IHl]; constructor; [apply IH|exact IHl].
Qed.

(** * The round trip *)

Definition round_trips (v : value) (t : ty) : Prop :=
  exists d v', to_dict ct v t = Ok d /\ plain d /\ to_object ct d t = Ok v' /\ alike ct v v'.

Definition json_type (d : value) : option pytype :=
  match d with
  | VBool _ => Some YBool | VInt _ => Some YInt | VFloat _ => Some YFloat | VStr _ => Some YStr
  | VNone => Some YNone | VList _ => Some YList | VDict _ => Some YDict | _ => None
  end.
Lemma json_type_of (d : value) (y : pytype) : json_type d = Some y -> type_of ct d = y.
Proof. destruct d; cbn; congruence. Qed.

(* the same for a converter that is not a union; the data may have a __type__ added *)
Definition converts (v : value) (b : basic) : Prop :=
  exists d v', dump (to_dict ct) b v = Ok d /\ plain d /\ json_type d = Some (converted_type b) /\
    load (to_object ct) b d = Ok v' /\ alike ct v v' /\
    forall kvs, d = VDict kvs ->
      ~ In TYPE_KEY (map fst kvs) /\
      forall n, load (to_object ct) b (VDict (dict_set str_eqb TYPE_KEY (VStr n) kvs)) = Ok v'.

Lemma dump_all_ok (l : list value) (t : ty) :
  Forall (fun v => round_trips v t) l ->
  exists l' m, dump_all (fun x => to_dict ct x t) l = Ok l' /\ Forall plain l' /\
    dump_all (fun x => to_object ct x t) l' = Ok m /\ Forall2 (alike ct) l m.
Proof.
  induction l as [|x l IH]; intros F.
  - exists [], []. repeat split; constructor.
  - inversion F; subst. destruct H1 as (d & v' & E1 & E2 & E3 & E4). destruct (IH H2) as (l' & m & L1 & L2 & L3 & L4).
    exists (d :: l'), (v' :: m). cbn. rewrite E1. cbn. rewrite L1. cbn. rewrite E3. cbn. rewrite L3. cbn.
    repeat split; constructor; assumption.
Qed.
Lemma dump_zip_ok (l : list value) (ts : list ty) :
  Forall2 round_trips l ts ->
  exists l' m, dump_zip (to_dict ct) l ts = Ok l' /\ Forall plain l' /\
    dump_zip (to_object ct) l' ts = Ok m /\ Forall2 (alike ct) l m.
Proof.
  intros F. induction F as [|x t l ts R F IH].
  - exists [], []. repeat split; constructor.
  - destruct R as (d & v' & E1 & E2 & E3 & E4). destruct IH as (l' & m & L1 & L2 & L3 & L4).
    exists (d :: l'), (v' :: m). cbn. rewrite E1. cbn. rewrite L1. cbn. rewrite E3. cbn. rewrite L3. cbn.
    repeat split; constructor; assumption.
Qed.

(* What happens to the fields of an object: values, data, arguments of __init__, new values *)
Inductive kept : list field -> list value -> list (pystr * value) -> list (pystr * value) -> list value -> Prop :=
| kept_nil : kept [] [] [] [] []
| kept_skip f d fs x l kvs kws m :
    f_default f = Default d -> py_eq ct x d = true -> kept fs l kvs kws m ->
    kept (f :: fs) (x :: l) kvs kws (d :: m)
| kept_keep f fs x y x' l kvs kws m :
    is_default ct f x = false -> to_dict ct x (f_type f) = Ok y -> plain y -> to_object ct y (f_type f) = Ok x' ->
    alike ct x x' -> kept fs l kvs kws m ->
    kept (f :: fs) (x :: l) ((f_name f, y) :: kvs) ((strip_one_underscore (f_name f), x') :: kws) (x' :: m).

Lemma kept_exists (fs : list field) (l : list value) :
  Forall2 (typed_field ct) l fs -> Forall (fun f => ty_ok ct (f_type f)) fs ->
  Forall (fun v => forall t, typed ct v t -> ty_ok ct t -> round_trips v t) l ->
  exists kvs kws m, kept fs l kvs kws m.
Proof.
  intros F. induction F as [|x f l fs T F IH]; intros K P.
  - exists [], [], []. constructor.
  - inversion K; subst. inversion P; subst. destruct (IH H2 H4) as (kvs & kws & m & R).
    destruct (is_default ct f x) eqn:E.
    + unfold is_default in E. destruct (f_default f) as [|d|] eqn:D; try discriminate.
      exists kvs, kws, (d :: m). eapply kept_skip; eassumption.
    + inversion T as [v g T'|v g d D Q]; subst.
      * destruct (H3 _ T' H1) as (y & x' & E1 & E2 & E3 & E4).
        exists ((f_name f, y) :: kvs), ((strip_one_underscore (f_name f), x') :: kws), (x' :: m).
        eapply kept_keep; eassumption.
      * unfold is_default in E. rewrite D in E. congruence.
Qed.
Lemma kept_dump (all fs : list field) (l : list value) kvs kws m :
  NoDup (map f_name all) -> (forall f, In f fs -> In f all) ->
  kept fs l kvs kws m -> dump_fields (to_dict ct) all fs l = Ok kvs.
Proof.
  intros N. intros S K. induction K; cbn.
  - reflexivity.
  - unfold is_default. rewrite H, H0. apply IHK. intros g I. apply S. right. exact I.
  - rewrite H. rewrite find_field_in; [|exact N|apply S; left; reflexivity]. rewrite H0. cbn.
    rewrite IHK; [reflexivity|]. intros g I. apply S. right. exact I.
Qed.
Lemma kept_names fs l kvs kws m :
  kept fs l kvs kws m -> incl (map fst kvs) (map f_name fs) /\ incl (map fst kws) (map (fun f => strip_one_underscore (f_name f)) fs).
Proof.
  intros K. induction K as [|f d fs x l kvs kws m D Q K IH|f fs x y x' l kvs kws m D E1 E2 E3 E4 K IH]; cbn.
  - split; apply incl_refl.
  - destruct IH as (I1 & I2). split; apply incl_tl; assumption.
  - destruct IH as (I1 & I2). split; apply incl_cons; try (left; reflexivity); apply incl_tl; assumption.
Qed.
Lemma kept_nodup fs l kvs kws m : NoDup (map f_name fs) -> kept fs l kvs kws m -> NoDup (map fst kvs).
Proof.
  intros N K. induction K as [|f d fs x l kvs kws m D Q K IH|f fs x y x' l kvs kws m D E1 E2 E3 E4 K IH]; cbn in *.
  - constructor.
  - inversion N; auto.
  - inversion N; subst. constructor; [|auto]. intros I. apply H1. apply (proj1 (kept_names _ _ _ _ _ K)). exact I.
Qed.
Lemma kept_plain fs l kvs kws m : kept fs l kvs kws m -> Forall (fun kv => plain (snd kv)) kvs.
Proof. intros K. induction K; [constructor|assumption|constructor; assumption]. Qed.
Lemma kept_alike fs l kvs kws m : kept fs l kvs kws m -> alike_fields ct fs l m.
Proof. intros K. induction K; [constructor|eapply alike_default; eassumption|constructor; assumption]. Qed.

Lemma not_type_key (f : field) : ~ two_underscores (f_name f) -> str_eqb (f_name f) TYPE_KEY = false.
Proof. intros H. apply str_eqb_neq. intros E. apply H. rewrite E. eexists. reflexivity. Qed.

Lemma kept_load (all fs : list field) (l : list value) kvs kws m :
  NoDup (map f_name all) -> (forall f, In f fs -> In f all) ->
  Forall (fun f => ~ two_underscores (f_name f)) fs ->
  NoDup (map (fun f => strip_one_underscore (f_name f)) fs) ->
  kept fs l kvs kws m ->
  forall acc, (forall f, In f fs -> ~ In (strip_one_underscore (f_name f)) (map fst acc)) ->
  load_fields (to_object ct) all kvs acc = Ok (acc ++ kws).
Proof.
  intros N S U M K. induction K as [|f d fs x l kvs kws m D Q K IH|f fs x y x' l kvs kws m D E1 E2 E3 E4 K IH]; intros acc A; cbn in *.
  - rewrite app_nil_r. reflexivity.
  - inversion U; inversion M; subst. apply IH; auto.
  - inversion U; inversion M; subst. rewrite (not_type_key f) by assumption.
    rewrite find_field_in; [|exact N|apply S; left; reflexivity]. rewrite E3. cbn.
    rewrite dict_set_new by (apply A; left; reflexivity).
    rewrite IH; auto.
    + rewrite <- app_assoc. reflexivity.
    + intros g I J. rewrite map_app in J. apply in_app_or in J. destruct J as [J|[J|[]]].
      * apply (A g); auto.
      * cbn in J. apply H5. rewrite J. apply in_map_iff. exists g. auto.
Qed.
Lemma load_tagged (G : value -> ty -> res value) all kvs acc n :
  load_fields G all (kvs ++ [(TYPE_KEY, VStr n)]) acc = load_fields G all kvs acc.
Proof.
  revert acc. induction kvs as [|(k, x) kvs IH]; intros acc.
  - cbn -[str_eqb TYPE_KEY]. rewrite str_eqb_refl. reflexivity.
  - cbn -[str_eqb TYPE_KEY]. destruct (str_eqb k TYPE_KEY); [apply IH|].
    destruct (find_field k all); [|reflexivity]. destruct (G x (f_type f)); cbn; [apply IH|reflexivity].
Qed.

Lemma lstrip_one (s : pystr) : ~ two_underscores s -> lstrip_underscores s = strip_one_underscore s.
Proof.
  intros H. destruct s as [|c s]; [reflexivity|]. cbn. destruct (c =? 95)%N eqn:E; [|reflexivity].
  apply N.eqb_eq in E. subst c. destruct s as [|c s]; [reflexivity|]. cbn.
  destruct (c =? 95)%N eqn:E; [|reflexivity]. apply N.eqb_eq in E. subst c. exfalso. apply H. eexists. reflexivity.
Qed.

Lemma kept_init (fs : list field) (l : list value) kvs kws m :
  Forall (fun f => ~ two_underscores (f_name f)) fs ->
  NoDup (map (fun f => strip_one_underscore (f_name f)) fs) ->
  kept fs l kvs kws m ->
  forall all, (forall f, In f fs -> lookup (strip_one_underscore (f_name f)) all = lookup (strip_one_underscore (f_name f)) kws) ->
  init_values fs all = Ok m.
Proof.
  intros U M K. induction K as [|f d fs x l kvs kws m D Q K IH|f fs x y x' l kvs kws m D E1 E2 E3 E4 K IH]; intros all A; cbn in *.
  - reflexivity.
  - inversion U; inversion M; subst. rewrite lstrip_one by assumption. rewrite A by (left; reflexivity).
    assert (L : lookup (strip_one_underscore (f_name f)) kws = None).
    { apply lookup_none. intros I. apply H5. apply (proj2 (kept_names _ _ _ _ _ K)). exact I. }
    rewrite L, D. cbn. rewrite (IH H2 H6 all); [reflexivity|]. intros g I. apply A. right. exact I.
  - inversion U; inversion M; subst. rewrite lstrip_one by assumption. rewrite A by (left; reflexivity).
    cbn. rewrite str_eqb_refl. cbn. rewrite (IH H2 H6 all); [reflexivity|]. intros g I.
    rewrite A by (right; exact I). cbn. rewrite str_eqb_neq; [reflexivity|]. intros E. apply H5. rewrite <- E.
    apply in_map_iff. exists g. auto.
Qed.

Lemma nodup_names (fs : list field) : NoDup (map (fun f => strip_one_underscore (f_name f)) fs) -> NoDup (map f_name fs).
Proof.
  intros N. rewrite <- (map_map f_name strip_one_underscore) in N. apply NoDup_map_inv in N. exact N.
Qed.

Lemma object_converts (c : pystr) (fs : list field) (l : list value) :
  table_ok ct -> attrs_class ct c fs -> Forall2 (typed_field ct) l fs ->
  c_check (class_of_id ct c) l = Ok l ->
  Forall (fun v => forall t, typed ct v t -> ty_ok ct t -> round_trips v t) l ->
  converts (VObj c l) (BAttrs c).
Proof.
  intros (_ & T & CK) F TF C P. destruct (T _ _ F) as (K & N & U).
  destruct (kept_exists _ _ TF K P) as (kvs & kws & m & KP).
  assert (FO : fields_of ct c = fs) by (unfold fields_of, attrs_class in *; rewrite F; reflexivity).
  pose proof (nodup_names _ N) as NN.
  assert (LD : load_fields (to_object ct) fs kvs [] = Ok kws).
  { apply (kept_load fs fs l kvs kws m NN (fun f I => I) U N KP []). intros f I []. }
  assert (IN : init ct c kws = Ok (VObj c m)).
  { unfold init. rewrite FO.
    assert (X : forallb (fun kv => existsb (fun f => str_eqb (fst kv) (lstrip_underscores (f_name f))) fs) kws = true).
    { apply forallb_forall. intros kv I. apply existsb_exists.
      pose proof (proj2 (kept_names _ _ _ _ _ KP) _ (in_map fst _ _ I)) as J. apply in_map_iff in J.
      destruct J as (f & E & J). exists f. split; [exact J|]. rewrite Forall_forall in U.
      rewrite (lstrip_one _ (U _ J)). apply str_eqb_eq. symmetry. exact E. }
    rewrite X. rewrite (kept_init _ _ _ _ _ U N KP kws (fun _ _ => eq_refl)). cbn.
    rewrite (CK c fs l m F (kept_alike _ _ _ _ _ KP) C). reflexivity. }
  exists (VDict kvs), (VObj c m).
  assert (TK : ~ In TYPE_KEY (map fst kvs)).
  { intros I. apply (proj1 (kept_names _ _ _ _ _ KP)) in I. apply in_map_iff in I. destruct I as (f & E & I).
    rewrite Forall_forall in U. apply (U _ I). rewrite E. eexists. reflexivity. }
  split; [|split; [|split; [|split; [|split]]]].
  - cbn. rewrite FO. rewrite (kept_dump fs fs l kvs kws m NN (fun f I => I) KP). reflexivity.
  - constructor; [exact (kept_nodup _ _ _ _ _ NN KP)|exact (kept_plain _ _ _ _ _ KP)].
  - reflexivity.
  - cbn. rewrite FO, LD. cbn. exact IN.
  - exact (alike_obj _ _ _ _ _ F (kept_alike _ _ _ _ _ KP)).
  - intros kvs' [= <-]. split; [exact TK|]. intros n. rewrite dict_set_new by exact TK.
    cbn. rewrite FO, load_tagged, LD. cbn. exact IN.
Qed.

(* [v] is a value of [t] itself: for classes, not of a subclass *)
Definition exactly (v : value) (t : ty) : Prop :=
  match v, t with VObj c _, TClass d => c = d | _, _ => True end.

Lemma NoDup_snoc {A} (l : list A) (x : A) : NoDup l -> ~ In x l -> NoDup (l ++ [x]).
Proof.
  intros N I. induction N as [|y l Hy N IH]; cbn; [constructor; [auto|constructor]|].
  constructor.
  - intros H. apply in_app_or in H. destruct H as [H|[->|[]]]; [contradiction|]. apply I. left. reflexivity.
  - apply IH. intros H. apply I. right. exact H.
Qed.
Lemma plain_tagged kvs n : plain (VDict kvs) -> ~ In TYPE_KEY (map fst kvs) -> plain (VDict (dict_set str_eqb TYPE_KEY (VStr n) kvs)).
Proof.
  intros P I. inversion P; subst. rewrite dict_set_new by exact I. constructor.
  - rewrite map_app. cbn [map fst]. apply NoDup_snoc; assumption.
  - apply Forall_app. split; [assumption|]. constructor; [constructor|constructor].
Qed.

Lemma value_converts (v : value) (t : ty) (b : basic) :
  table_ok ct -> typed ct v t -> ty_ok ct t -> exactly v t -> create_basic ct t = Ok b ->
  Forall (fun v => forall t, typed ct v t -> ty_ok ct t -> round_trips v t)
         (match v with VList l | VTuple l | VObj _ l => l | _ => [] end) ->
  converts v b /\ (input_type b = type_of ct v \/ exists c, v = VType c).
Proof.
  intros T TV OK X B P. inversion TV; subst; cbn in B; try (injection B as <-); try discriminate B.
  - split; [|left; reflexivity]. eexists _, _. repeat (split; [constructor||reflexivity|]). intros ? [=].
  - split; [|left; reflexivity]. eexists _, _. repeat (split; [constructor||reflexivity|]). intros ? [=].
  - split; [|left; reflexivity]. eexists _, _. repeat (split; [constructor||reflexivity|]). intros ? [=].
  - split; [|left; reflexivity]. eexists _, _. repeat (split; [constructor||reflexivity|]). intros ? [=].
  - split; [|left; reflexivity]. eexists _, _. repeat (split; [constructor||reflexivity|]). intros ? [=].
  - split; [|left; reflexivity]. inversion OK; subst.
    destruct (dump_all_ok l t0) as (l' & m & L1 & L2 & L3 & L4).
    { rewrite Forall_forall in *. intros x I. apply P; auto. }
    exists (VList l'), (VList m). cbn. rewrite L1. cbn. rewrite L3. cbn.
    repeat (split; [reflexivity||(constructor; assumption)|]). intros ? [=].
  - split; [|left; reflexivity]. inversion OK; subst.
    destruct (dump_all_ok l t0) as (l' & m & L1 & L2 & L3 & L4).
    { rewrite Forall_forall in *. intros x I. apply P; auto. }
    exists (VList l'), (VTuple m). cbn. rewrite L1. cbn. rewrite L3. cbn.
    repeat (split; [reflexivity||(constructor; assumption)|]). intros ? [=].
  - split; [|left; reflexivity]. inversion OK; subst.
    destruct (dump_zip_ok l ts) as (l' & m & L1 & L2 & L3 & L4).
    { clear - H P H1. revert H1. induction H as [|x u l ts H0 H IH]; intros F; [constructor|].
      inversion F; subst. inversion P; subst. constructor; auto. }
    exists (VList l'), (VTuple m). cbn. rewrite L1. cbn. rewrite L3. cbn.
    repeat (split; [reflexivity||(constructor; assumption)|]). intros ? [=].
  - split; [|left; reflexivity]. exists (VStr m), (VEnum e m). cbn. rewrite H.
    replace (existsb (str_eqb m) ms) with true.
    2: { symmetry. apply existsb_exists. exists m. split; [assumption|apply str_eqb_refl]. }
    repeat (split; [reflexivity||constructor|]). intros ? [=].
  - split; [|right; exists d; reflexivity]. inversion OK; subst.
    exists (VStr (c_name (class_of_id ct d))), (VType d). cbn.
    rewrite names_read by (try assumption; exists c; auto).
    repeat (split; [reflexivity||constructor|]). intros ? [=].
  - cbn in X. subst d. unfold attrs_class in H0. rewrite H0 in B. injection B as <-.
    split; [|left; reflexivity]. exact (object_converts c fs vals T H0 H1 H2 P).
Qed.

Lemma basic_round (v : value) (t : ty) (b : basic) :
  create ct t = Ok (Basic b) -> converts v b -> round_trips v t.
Proof.
  intros C (d & v' & E1 & E2 & E3 & E4 & E5 & _). exists d, v'.
  rewrite to_dict_eq, to_object_eq, C. cbn. rewrite E1. cbn. auto.
Qed.

Lemma union_round (v : value) (t : ty) (ts : list ty) (u : union) :
  table_ok ct -> create ct t = Ok (Union u) -> union_works ct ts u ->
  (forall cs d, In (TTypeOf cs) ts -> among ct cs d -> c_meta (class_of_id ct d) = false) ->
  (forall t, In t ts -> ty_ok ct t /\ kind_of t <> None) ->
  (exists t0, In t0 ts /\ typed ct v t0) ->
  all_attrs ct (classes_of ts) ->
  Forall (fun v => forall t, typed ct v t -> ty_ok ct t -> round_trips v t)
         (match v with VList l | VTuple l | VObj _ l => l | _ => [] end) ->
  round_trips v t.
Proof.
  intros T C W M OK (t0 & I & TV) AA P.
  destruct (OK _ I) as (OK0 & K0).
  destruct (is_class t0) eqn:E.
  - destruct t0; try discriminate. inversion TV; subst.
    assert (Am : among ct (classes_of ts) d).
    { exists c. split; [|assumption]. unfold classes_of. apply in_flat_map. exists (TClass c). split; [exact I|left; reflexivity]. }
    destruct (uw_class _ _ _ W d Am) as (L1 & L2 & L3 & L4 & L5).
    destruct (object_converts d fs vals T H1 H2 H4 P) as (dd & v' & E1 & E2 & E3 & E4 & E5 & E6).
    destruct dd; try discriminate. destruct (E6 _ eq_refl) as (NK & TG). 
    destruct (1 <? length (dd_dict (u_dis u)))%nat eqn:EL.
    + exists (VDict (dict_set str_eqb TYPE_KEY (VStr (c_name (class_of_id ct d))) l)), v'.
      rewrite to_dict_eq, to_object_eq, C. cbn -[dump load TYPE_KEY str_eqb]. rewrite L1, EL. cbn -[dump load TYPE_KEY str_eqb]. rewrite E1. cbn -[dump load TYPE_KEY str_eqb].
      split; [reflexivity|]. split; [apply plain_tagged; assumption|]. split; [|exact E5].
      rewrite lookup_dict_set, str_eqb_refl, L4.
      replace (length (dd_obj (u_dis u)) =? 1)%nat with false by (symmetry; apply Nat.eqb_neq; apply Nat.ltb_lt in EL; lia).
      cbn -[load TYPE_KEY str_eqb]. apply TG.
    + exists (VDict l), v'.
      rewrite to_dict_eq, to_object_eq, C. cbn -[dump load TYPE_KEY str_eqb]. rewrite L1, EL. cbn -[dump load TYPE_KEY str_eqb]. rewrite E1. cbn -[dump load TYPE_KEY str_eqb].
      split; [reflexivity|]. split; [exact E2|]. split; [|exact E5].
      apply Nat.ltb_ge in EL. assert (EQ : length (dd_dict (u_dis u)) = 1%nat) by lia.
      rewrite L2, EQ, (L5 EQ). cbn -[load]. exact E4.
  - destruct (create_basic_ok ct t0 K0) as (b & B).
    { intros c ->. discriminate. }
    assert (EX : exactly v t0) by (destruct v; cbn; auto; destruct t0; auto; discriminate).
    destruct (value_converts v t0 b T TV OK0 EX B P) as (CV & IT).
    assert (IT' : input_type b = type_of ct v).
    { destruct IT as [IT|(c & ->)]; [exact IT|]. inversion TV; subst.
      - cbn in B. injection B as <-. cbn. rewrite (M cs c I); [reflexivity|]. exists c0. auto.
      - cbn in K0. contradiction. }
    destruct (uw_other _ _ _ W t0 b I E B) as (L1 & L2 & L3).
    destruct CV as (d & v' & E1 & E2 & E3 & E4 & E5 & _).
    exists d, v'. rewrite to_dict_eq, to_object_eq, C. cbn -[dump load choose_to_object]. rewrite <- IT', L1, L2. cbn -[dump load choose_to_object]. rewrite E1. cbn -[dump load choose_to_object].
    split; [reflexivity|]. split; [exact E2|]. split; [|exact E5].
    replace (choose_to_object ct (Union u) d) with (@Ok basic b); [exact E4|].
    assert (ND : converted_type b <> YDict).
    { intros Y. pose proof (is_dict_class ct _ _ B) as Q. unfold is_dict in Q. rewrite Y, E in Q. discriminate. }
    destruct d; cbn in E3; try discriminate; assert (E3' := f_equal (fun o => match o with Some y => y | None => YDict end) E3); cbn in E3'; clear E3;
      try (cbn; rewrite E3', L3; reflexivity).
    congruence.
Qed.

Lemma not_class_kind (t : ty) : kind_of t <> None -> match t with TClass _ | TUnion _ => False | _ => True end -> create ct t = (b <- create_basic ct t ;; Ok (Basic b)).
Proof. destruct t; cbn; try reflexivity; tauto. Qed.

Lemma round_trip_all (v : value) (t : ty) : table_ok ct -> typed ct v t -> ty_ok ct t -> round_trips v t.
Proof.
  intros T. revert t. induction v using value_rect'; intros t TV OK.
  all: match goal with |- round_trips ?w _ =>
    assert (P : Forall (fun v => forall t, typed ct v t -> ty_ok ct t -> round_trips v t)
         (match w with VList l | VTuple l | VObj _ l => l | _ => [] end)) by (assumption || constructor) end.
  all: match goal with |- round_trips ?v ?t =>
    assert (H0 : match t with TClass _ | TUnion _ => True | _ => round_trips v t end);
    [ destruct t as [ | | | | |t'|t'|ts'|e'|cs'|c'|ts'| ]; try exact I; try (inversion TV; fail);
      (eapply basic_round; [reflexivity|refine (proj1 (value_converts _ _ _ T TV OK _ eq_refl P)); cbn; auto])
    | destruct t as [ | | | | |t'|t'|ts'|e'|cs'|c'|ts'| ]; try exact H0; clear H0 ]
  end.
  all: try (inversion TV; fail).
  all: try (match goal with TV : typed _ ?v (TUnion ?ts) |- _ =>
    inversion OK; subst; inversion TV; subst;
    destruct (new_union_works ct ts T) as (u & U1 & U2); try assumption;
    refine (union_round v (TUnion ts) ts u T _ U2 _ _ _ _ P); try assumption;
    [ cbn; rewrite U1; reflexivity
    | intros tt It; split; [match goal with F : Forall (ty_ok ct) _ |- _ => rewrite Forall_forall in F; apply F; exact It end
                           |match goal with F : Forall (fun t => kind_of t <> None) _ |- _ => rewrite Forall_forall in F; apply F; exact It end]
    | eexists; split; eassumption ] end).
  (* an object at a class *)
  inversion TV; subst. inversion OK; subst.
  destruct (c_subclasses (class_of_id ct c')) as [|s ss] eqn:E.
  - assert (c = c') by (match goal with D : descends ct c' c |- _ => inversion D; subst; [reflexivity|] end;
      match goal with J : In _ (c_subclasses _) |- _ => rewrite E in J; destruct J end). subst c'.
    eapply basic_round.
    + cbn. rewrite E. match goal with A : attrs_class ct c fs |- _ => unfold attrs_class in A; rewrite A end. reflexivity.
    + match goal with A : attrs_class ct c fs |- _ => exact (object_converts c fs l T A ltac:(assumption) ltac:(assumption) P) end.
  - assert (CL : classes_of [TClass c'] = [c']) by reflexivity.
    destruct (new_union_works ct [TClass c'] T) as (u & U1 & U2).
    + constructor; [discriminate|constructor].
    + constructor.
    + rewrite CL. assumption.
    + rewrite CL. assumption.
    + refine (union_round (VObj c l) (TClass c') [TClass c'] u T _ U2 _ _ _ _ P).
      * cbn -[new_union]. rewrite E, U1. reflexivity.
      * intros cs d [[=]|[]].
      * intros tt [<-|[]]. split; [exact OK|discriminate].
      * exists (TClass c'). split; [left; reflexivity|exact TV].
      * rewrite CL. assumption.
Qed.
End Table.

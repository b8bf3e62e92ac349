(** Calls of short_vec member functions commute with homomorphisms of lane
    algebras. *)
From Coq Require Import String ZArith Bool List Lia.
From Verif Require Import ShortVecLang ShortVecClass.
Import ListNotations.
Local Open Scope Z_scope.

Section Hom.
Context {T U : Type} (A : alg T) (B : alg U) (h : T -> U).

Record hom : Prop := mkHom {
  h_un : forall o t, h (a_un A o t) = a_un B o (h t);
  h_bin : forall o t u, h (a_bin A o t u) = a_bin B o (h t) (h u);
  h_sel : forall c t u, h (a_sel A c t u) = a_sel B (h c) (h t) (h u);
  h_lit : forall z, h (a_lit A z) = a_lit B z;
  h_data : forall z, h (a_data A z) = a_data B z;
  h_off : forall z, h (a_off A z) = a_off B z;
  h_ptr : forall t, h (a_ptr A t) = a_ptr B (h t);
  h_undef : h (a_undef A) = a_undef B }.

Context (H : hom).

Definition map_addr (a : address T) : address U :=
  match a with
  | AData z => AData z | AOff z => AOff z | APtr => APtr
  | APtrAt t => APtrAt (h t) | ALoc x z => ALoc x z
  end.

Definition map_value (v : value T) : value U :=
  match v with
  | VReg l => VReg (map h l)
  | VBits l => VBits (map (option_map h) l)
  | VInt z => VInt z
  | VAddr a => VAddr (map_addr a)
  end.

Definition map_write (p : address T * T) : address U * U := (map_addr (fst p), h (snd p)).
Definition map_vt (p : value T * list (address T)) : value U * list (address U) :=
  (map_value (fst p), map map_addr (snd p)).
Definition map_vst (p : list (value T) * list (address T)) : list (value U) * list (address U) :=
  (map map_value (fst p), map map_addr (snd p)).
Definition map_tt (p : T * list (address T)) : U * list (address U) :=
  (h (fst p), map map_addr (snd p)).
Definition map_tst (p : list T * list (address T)) : list U * list (address U) :=
  (map h (fst p), map map_addr (snd p)).
Definition map_zt (c : Z + T) : Z + U :=
  match c with inl z => inl z | inr t => inr (h t) end.

Definition map_env (e : env T) : env U :=
  mkEnv (en_kind e) (en_mbits e) (map (map h) (en_other e)) (map (map h) (en_mask e))
        (map (option_map h) (en_maskint e)) (map (map h) (en_par e)) (h (en_arg e))
        (en_mis e) (en_omis e) (en_oalias e) (en_malias e).

Definition map_var (p : string * value T) : string * value U := (fst p, map_value (snd p)).

Definition map_st (s : st T) : st U :=
  mkSt (map (map h) (st_val s)) (map map_var (st_vars s))
       (map map_addr (st_reads s)) (map map_write (st_writes s)).

Definition map_outcome (o : outcome T) : outcome U :=
  match o with
  | Running s => Running (map_st s)
  | Returned s v => Returned (map_st s) (map_value v)
  | ReturnedVec s r => ReturnedVec (map_st s) (map (map h) r)
  end.

(** *** Lists *)

Lemma omap_ext : forall (X Y : Type) (f g : X -> option Y) l,
  (forall x, f x = g x) -> omap f l = omap g l.
Proof. intros X Y f g l E; induction l; cbn; [reflexivity|]. rewrite E, IHl. reflexivity. Qed.

Lemma omap_map : forall (X Y Z' W : Type) (f : Y -> option W) (g : X -> option Z')
    (p : X -> Y) (q : Z' -> W) l,
  (forall x, f (p x) = option_map q (g x)) ->
  omap f (map p l) = option_map (map q) (omap g l).
Proof.
  intros X Y Z' W f g p q l E; induction l as [|x l IH]; cbn; [reflexivity|].
  rewrite E, IH. destruct (g x); cbn; [|reflexivity]. destruct (omap g l); reflexivity.
Qed.

Lemma omap_post : forall (X Y W : Type) (f : X -> option W) (g : X -> option Y)
    (q : Y -> W) l,
  (forall x, f x = option_map q (g x)) -> omap f l = option_map (map q) (omap g l).
Proof.
  intros. rewrite <- (map_id l) at 1. now apply omap_map.
Qed.

Lemma combine_map : forall (X Y X' Y' : Type) (f : X -> X') (g : Y -> Y') l r,
  combine (map f l) (map g r) = map (fun p => (f (fst p), g (snd p))) (combine l r).
Proof.
  intros X Y X' Y' f g l; induction l; destruct r; cbn; try reflexivity.
  now rewrite IHl.
Qed.

Lemma map2_map : forall (X Y W X' Y' W' : Type) (f : X' -> Y' -> W') (g : X -> Y -> W)
    (p : X -> X') (q : Y -> Y') (r : W -> W') l m,
  (forall x y, f (p x) (q y) = r (g x y)) ->
  map2 f (map p l) (map q m) = map r (map2 g l m).
Proof.
  intros. unfold map2. rewrite combine_map, !map_map. apply map_ext.
  intros [x y]; cbn. apply H0.
Qed.

Lemma map_replace_nth : forall (X Y : Type) (f : X -> Y) k x l,
  map f (replace_nth k x l) = replace_nth k (f x) (map f l).
Proof.
  intros X Y f k x l; revert k; induction l; destruct k; cbn; try reflexivity.
  now rewrite IHl.
Qed.

Lemma nth_error_map : forall (X Y : Type) (f : X -> Y) l n,
  nth_error (map f l) n = option_map f (nth_error l n).
Proof. intros X Y f l; induction l; destruct n; cbn; auto. Qed.

Lemma znth_map : forall (X Y : Type) (f : X -> Y) l z,
  znth (map f l) z = option_map f (znth l z).
Proof.
  intros. unfold znth. destruct (z <? 0); [reflexivity|]. apply nth_error_map.
Qed.

Lemma map_repeat : forall (X Y : Type) (f : X -> Y) x n,
  map f (repeat x n) = repeat (f x) n.
Proof. intros; induction n; cbn; congruence. Qed.

Lemma concat_map_map : forall (X Y : Type) (f : X -> Y) l,
  map f (concat l) = concat (map (map f) l).
Proof. intros; apply concat_map. Qed.

(** *** State and addresses *)

Lemma lookup_map : forall x l,
  lookup x (map map_var l) = option_map map_value (lookup x l).
Proof.
  intros x l; induction l as [|[y v] l IH]; cbn; [reflexivity|].
  destruct (String.eqb x y); [reflexivity|exact IH].
Qed.

Lemma aadd_map : forall a z, aadd (map_addr a) z = option_map map_addr (aadd a z).
Proof. destruct a; reflexivity. Qed.

Lemma rd_map : forall s a,
  rd B (map_st s) (map_addr a) = option_map map_tt (rd A s a).
Proof.
  intros s [z|z| |t|x z]; cbn; try reflexivity.
  - unfold map_tt; cbn. now rewrite (h_data H).
  - unfold map_tt; cbn. now rewrite (h_off H).
  - unfold map_tt; cbn. now rewrite (h_ptr H).
  - rewrite lookup_map. destruct (lookup x (st_vars s)) as [[l|l|z'|a]|]; cbn; try reflexivity.
    rewrite znth_map. destruct (znth l z); reflexivity.
Qed.

Lemma rds_map : forall s l,
  rds B (map_st s) (map map_addr l) = option_map map_tst (rds A s l).
Proof.
  intros s l. unfold rds.
  rewrite (omap_map _ _ _ _ (rd B (map_st s)) (rd A s) map_addr map_tt) by (intro; apply rd_map).
  destruct (omap (rd A s) l) as [rs|]; cbn; [|reflexivity].
  unfold map_tst; cbn. rewrite !map_map, concat_map_map, !map_map. reflexivity.
Qed.

Lemma awidth_map : forall e a, awidth (map_env e) (map_addr a) = awidth e a.
Proof. destruct a; reflexivity. Qed.

Lemma amis_map : forall e a, amis (map_env e) (map_addr a) = amis e a.
Proof. destruct a; reflexivity. Qed.

Lemma aligned_map : forall e a n, aligned (map_env e) (map_addr a) n = aligned e a n.
Proof. intros. unfold aligned. now rewrite amis_map, awidth_map. Qed.

Lemma arange_map : forall e a n w,
  arange (map_env e) (map_addr a) n w = option_map (map map_addr) (arange e a n w).
Proof.
  intros. unfold arange. rewrite awidth_map. destruct (_ =? _); [|reflexivity].
  apply omap_post. intro; apply aadd_map.
Qed.

Lemma some_list_map : forall l,
  concat (map (fun o => match o with Some t => [t] | None => [] end) (map (option_map h) l))
  = map h (concat (map (fun o => match o with Some t => [t] | None => [] end) l)).
Proof. induction l as [|[t|] l IH]; cbn; congruence. Qed.

Lemma bit_or_map : forall l,
  bit_or B (map (option_map h) l) = option_map h (bit_or A l).
Proof.
  intros. unfold bit_or. rewrite some_list_map.
  destruct (concat _) as [|t r]; cbn; [reflexivity|]. f_equal.
  revert t; induction r as [|u r IH]; intro t; cbn; [reflexivity|].
  rewrite <- (h_bin H). apply IH.
Qed.

Lemma as_cond_map : forall e v,
  as_cond B (map_env e) (map_value v) = option_map map_zt (as_cond A e v).
Proof.
  intros e [l|l|z|a]; cbn; try reflexivity.
  - destruct l as [|t [|u l]]; cbn; try reflexivity. now rewrite (h_un H).
  - rewrite bit_or_map. destruct (bit_or A l); reflexivity.
Qed.

Lemma lanes_map : forall n l, lanes n (map h l) = lanes n l.
Proof. intros. unfold lanes. now rewrite map_length. Qed.

Lemma part_map : forall l p i, part (map h l) p i = map h (part l p i).
Proof. intros. unfold part. now rewrite skipn_map, firstn_map. Qed.

(** *** Intrinsics *)

Lemma rds_ret : forall s (l : list (address T)),
  match rds B (map_st s) (map map_addr l) with
  | Some (ts, tr) => Some (VReg ts, tr) | None => None end
  = option_map map_vt (match rds A s l with
                       | Some (ts, tr) => Some (VReg ts, tr) | None => None end).
Proof.
  intros. rewrite rds_map. destruct (rds A s l) as [[ts tr]|]; reflexivity.
Qed.

Lemma arange_ret : forall e s a n w,
  match arange (map_env e) (map_addr a) n w with
  | Some l => match rds B (map_st s) l with
              | Some (ts, tr) => Some (VReg ts, tr) | None => None end
  | None => None end
  = option_map map_vt
      (match arange e a n w with
       | Some l => match rds A s l with
                   | Some (ts, tr) => Some (VReg ts, tr) | None => None end
       | None => None end).
Proof.
  intros. rewrite arange_map. destruct (arange e a n w); cbn [option_map]; [|reflexivity].
  apply rds_ret.
Qed.

Lemma ptrs_map : forall l, map APtrAt (map h l) = map map_addr (map APtrAt l).
Proof. intros. rewrite !map_map. reflexivity. Qed.

Lemma fill_map : forall k r k' l m,
  map2 (fun p q => a_un B (UFill k) (a_bin B (BRel r k') p q)) (map h l) (map h m)
  = map h (map2 (fun p q => a_un A (UFill k) (a_bin A (BRel r k') p q)) l m).
Proof. intros. apply map2_map. intros. now rewrite (h_un H), (h_bin H). Qed.

Lemma sel_map : forall k x y m,
  map2 (fun c p => a_sel B (a_un B (UMsb k) c) (fst p) (snd p)) (map h m)
       (combine (map h y) (map h x))
  = map h (map2 (fun c p => a_sel A (a_un A (UMsb k) c) (fst p) (snd p)) m (combine y x)).
Proof.
  intros. rewrite combine_map. apply map2_map. intros c [a b]; cbn.
  now rewrite (h_sel H), (h_un H).
Qed.

Ltac dreg := repeat match goal with
  | |- context [match map h ?l with _ => _ end] => is_var l; destruct l; cbn [map]; try reflexivity
  | |- context [match map_addr ?a with _ => _ end] => is_var a; destruct a; cbn [map_addr]; try reflexivity
  | |- context [match map_value ?v with _ => _ end] => is_var v; destruct v; cbn [map_value]; try reflexivity
  | |- context [match map map_value ?l with _ => _ end] => is_var l; destruct l; cbn [map]; try reflexivity
  end.

Ltac dif := rewrite ?lanes_map, ?awidth_map, ?aligned_map, ?amis_map, ?map_length;
  repeat match goal with
  | |- (if ?b then _ else _) = _ => destruct b eqn:?; [|reflexivity]
  | |- (match cmp_imm ?b with _ => _ end) = _ => destruct (cmp_imm b); [|reflexivity]
  | |- (match amis ?e ?b with _ => _ end) = _ => destruct (amis e b); [|reflexivity]
  end; cbn [option_map].

Ltac dvs vs l z a k := is_var vs;
  let v := fresh "v" in let r := fresh "r" in
  destruct vs as [|v r]; cbn [map]; [try reflexivity|];
  destruct v as [l|l|z|a]; cbn [map_value]; try reflexivity; k r.

Ltac ret := unfold map_vt; cbn [fst snd map map_value]; f_equal; f_equal; f_equal.

Lemma icall_map : forall e s f vs,
  icall B (map_env e) (map_st s) f (map map_value vs)
  = option_map map_vt (icall A e s f vs).
Proof.
  intros e s f vs.
  assert (FS : forall n, icall B (map_env e) (map_st s) (ISetRev n) (map map_value vs)
    = option_map map_vt (icall A e s (ISetRev n) vs)).
  { intro n. cbn [icall].
    erewrite (omap_map _ _ _ _ _ (fun v => match v with VReg [t] => Some t | _ => None end) map_value h).
    2:{ intros [l|l|z|a]; try reflexivity. cbn. destruct l as [|t [|u l]]; reflexivity. }
    destruct (omap _ vs) as [l|]; cbn [option_map]; [|reflexivity].
    dif. ret. symmetry; apply map_rev. }
  destruct f; try apply FS; clear FS.
  all: cbn [icall].
  all: try (dvs vs l1 z1 a1 ltac:(fun vs => try dvs vs l2 z2 a2 ltac:(fun vs => try dvs vs l3 z3 a3
         ltac:(fun vs => try dvs vs l4 z4 a4 ltac:(fun vs => try (destruct vs; [|reflexivity])))))).
  all: try (destruct z1; try reflexivity; []).
  all: dreg; try reflexivity; change (en_kind (map_env e)) with (en_kind e); dif; try reflexivity.
  - ret. rewrite !map_map. apply map_ext. intro; symmetry; apply (h_un H).
  - ret. apply map2_map. intros; symmetry; apply (h_bin H).
  - ret. apply fill_map.
  - ret. apply map2_map. intros; symmetry. now rewrite (h_un H), (h_bin H).
  - ret. apply map2_map. intros; symmetry. now rewrite (h_un H), (h_bin H).
  - ret. apply fill_map.
  - ret. rewrite map_map.
    rewrite (map2_map _ _ _ _ _ _ _ (a_bin A (BRel r k)) h h h)
      by (intros; symmetry; apply (h_bin H)).
    rewrite map_map. reflexivity.
  - ret. symmetry; apply map_repeat.
  - ret. rewrite map_repeat. now rewrite (h_lit H).
  - apply arange_ret.
  - rewrite rd_map. destruct (rd A s a1) as [[t tr]|]; cbn [option_map]; [|reflexivity].
    unfold map_tt, map_vt; cbn [fst snd map map_value]. now rewrite map_repeat, (h_lit H).
  - ret. cbn [map]. now rewrite map_repeat, (h_lit H).
  - rewrite rd_map. destruct (rd A s a2) as [[t tr]|]; cbn [option_map]; [|reflexivity].
    unfold map_tt, map_vt; cbn [fst snd map map_value]. now rewrite map_replace_nth.
  - rewrite znth_map. destruct (znth l1 z2); reflexivity.
  - destruct (lanes n []); reflexivity.
  - change (h t :: map h l1) with (map h (t :: l1)). rewrite lanes_map.
    destruct (lanes n (t :: l1)); reflexivity.
  - ret. now rewrite map_replace_nth.
  - ret. now rewrite map_replace_nth.
  - ret. apply part_map.
  - ret. now rewrite !map_app, firstn_map, skipn_map.
  - rewrite !znth_map. destruct (znth l1 _), (znth l1 _), (znth l2 _), (znth l2 _); reflexivity.
  - rewrite !znth_map. destruct (znth l1 _), (znth l2 _); reflexivity.
  - rewrite !znth_map. destruct (znth l1 _), (znth l1 _), (znth l1 _), (znth l1 _); reflexivity.
  - ret. now rewrite map_app, skipn_map, map_repeat, (h_lit H).
  - ret. cbn [map]. now rewrite !(h_bin H).
  - unfold map_vt; cbn [fst snd map map_addr map_value]. rewrite (h_un H). repeat f_equal.
    rewrite <- (h_un H), <- (h_ptr H), <- map_replace_nth.
    rewrite <- (map_id (seq 0 4)) at 1. rewrite combine_map, !map_map.
    apply map_ext. intros [i t']; cbn [fst snd]. destruct (Z.testbit _ _); [|reflexivity].
    symmetry; apply (h_lit H).
  - ret. apply sel_map.
  - ret. rewrite firstn_map, combine_map. apply map2_map. intros [c|] [a b]; cbn; [|reflexivity].
    symmetry; apply (h_sel H).
  - rewrite (map2_map _ _ _ _ _ _ _ (a_bin A BAnd) h h h)
      by (intros; symmetry; apply (h_bin H)).
    rewrite map_map.
    rewrite (map_ext (fun x => Some (a_un B UNonZero (h x)))
                     (fun x => option_map h (Some (a_un A UNonZero x))))
      by (intro; cbn; now rewrite (h_un H)).
    rewrite <- (map_map (fun x => Some (a_un A UNonZero x)) (option_map h)), bit_or_map.
    destruct (bit_or A _); cbn [option_map]; [|reflexivity].
    unfold map_vt; cbn. now rewrite (h_un H).
  - rewrite (map2_map _ _ _ _ _ _ _ (a_bin A BAnd) h h h)
      by (intros; symmetry; apply (h_bin H)).
    replace (map (a_un B UNonZero) (map h (map2 (a_bin A BAnd) l1 l2)))
      with (map h (map (a_un A UNonZero) (map2 (a_bin A BAnd) l1 l2)))
      by (rewrite !map_map; apply map_ext; intro; apply (h_un H)).
    generalize (map (a_un A UNonZero) (map2 (a_bin A BAnd) l1 l2)). intro nz.
    destruct (lanes 8 l1 && lanes 8 l2).
    { unfold map_vt; cbn [option_map fst snd map_value map]. rewrite !map_map. reflexivity. }
    destruct (lanes 16 l1 && lanes 16 l2); [|reflexivity].
    unfold map_vt; cbn [option_map fst snd map_value map]. do 3 f_equal. rewrite map_map. apply map_ext. intro i. rewrite !nth_error_map.
    destruct (nth_error nz (2 * i)); cbn [option_map]; [|reflexivity].
    destruct (nth_error nz (2 * i + 1)); cbn [option_map]; [|reflexivity].
    now rewrite (h_bin H).
  - rewrite firstn_map, ptrs_map. apply rds_ret.
  - rewrite firstn_map, ptrs_map. apply rds_ret.
  - ret. now rewrite !map_app, !part_map.
  - rewrite arange_map. destruct (arange _ _ _ _); cbn [option_map]; [|reflexivity].
    rewrite rds_map. destruct (rds A s l) as [[ts tr]|]; cbn [option_map]; [|reflexivity].
    unfold map_vt, map_tst; cbn [fst snd map_value]. now rewrite map_app, skipn_map.
  - rewrite aadd_map. destruct (aadd _ _); cbn [option_map]; [|reflexivity].
    rewrite arange_map. destruct (arange _ _ _ _); cbn [option_map]; [|reflexivity].
    rewrite rds_map. destruct (rds A s l) as [[ts tr]|]; cbn [option_map]; [|reflexivity].
    unfold map_vt, map_tst; cbn [fst snd map_value]. now rewrite map_app, firstn_map.
  - rewrite aadd_map. destruct (aadd _ _); cbn [option_map]; [|reflexivity]. apply arange_ret.
  - apply arange_ret.
Qed.

Lemma cpair_map : forall p ts,
  cpair (option_map (map map_addr) p) (map h ts) = option_map (map map_write) (cpair p ts).
Proof.
  intros [l|] ts; cbn; [|reflexivity]. now rewrite combine_map.
Qed.

Lemma ieffect_map : forall e f vs,
  ieffect (map_env e) f (map map_value vs) = option_map (map map_write) (ieffect e f vs).
Proof.
  intros e f vs. destruct f.
  all: cbn [ieffect]; try reflexivity.
  all: try (dvs vs l1 z1 a1 ltac:(fun vs => try dvs vs l2 z2 a2 ltac:(fun vs => try dvs vs l3 z3 a3
         ltac:(fun vs => try dvs vs l4 z4 a4 ltac:(fun vs => try (destruct vs; [|reflexivity])))))).
  all: try (destruct z2; try reflexivity; []).
  all: dreg; try reflexivity; change (en_kind (map_env e)) with (en_kind e); dif; try reflexivity.
  - rewrite arange_map. apply cpair_map.
  - rewrite nth_error_map. destruct (nth_error l2 i); reflexivity.
  - rewrite firstn_map, ptrs_map, combine_map. reflexivity.
  - rewrite arange_map, firstn_map. apply cpair_map.
  - rewrite aadd_map. destruct (aadd _ _); cbn [option_map]; [|reflexivity].
    rewrite arange_map, skipn_map. apply cpair_map.
  - rewrite aadd_map. destruct (aadd _ _); cbn [option_map]; [|reflexivity].
    rewrite arange_map. apply cpair_map.
  - rewrite arange_map. apply cpair_map.
Qed.

(** *** Operators *)

Lemma bits_add_map : forall a b,
  bits_add (map (option_map h) a) (map (option_map h) b)
  = option_map (map (option_map h)) (bits_add a b).
Proof.
  induction a as [|x a IH]; intros [|y b]; cbn; try reflexivity.
  rewrite IH. destruct (bits_add a b); cbn; [|reflexivity].
  destruct x, y; reflexivity.
Qed.

Lemma bits_and_map : forall z l,
  bits_and z (map (option_map h) l) = map (option_map h) (bits_and z l).
Proof.
  intros. unfold bits_and. rewrite map_length, <- (map_id (seq 0 (length l))) at 1.
  rewrite combine_map, !map_map. apply map_ext. intros [i o]; cbn [fst snd].
  destruct (Z.testbit z (Z.of_nat i)); reflexivity.
Qed.

Lemma cond_or_map : forall a b,
  cond_or B (map_zt a) (map_zt b) = map_value (cond_or A a b).
Proof.
  intros [x|t] [y|u]; cbn; try reflexivity.
  - destruct (x =? 0); reflexivity.
  - destruct (y =? 0); reflexivity.
  - now rewrite (h_bin H).
Qed.

Lemma lor_map : forall e a b,
  match as_cond B (map_env e) (map_value a), as_cond B (map_env e) (map_value b) with
  | Some c, Some d => Some (cond_or B c d) | _, _ => None end
  = option_map map_value
      (match as_cond A e a, as_cond A e b with
       | Some c, Some d => Some (cond_or A c d) | _, _ => None end).
Proof.
  intros. rewrite !as_cond_map.
  destruct (as_cond A e a), (as_cond A e b); cbn [option_map]; try reflexivity.
  now rewrite cond_or_map.
Qed.

Lemma eq0_map : forall l,
  match bit_or B (map (option_map h) l) with
  | Some t => Some (VBits [Some (a_un B UNot t)]) | None => Some (VInt 1) end
  = option_map map_value
      (match bit_or A l with
       | Some t => Some (VBits [Some (a_un A UNot t)]) | None => Some (VInt 1) end).
Proof.
  intros. rewrite bit_or_map. destruct (bit_or A l); cbn; [|reflexivity].
  now rewrite (h_un H).
Qed.

Lemma ne0_map : forall l,
  match bit_or B (map (option_map h) l) with
  | Some t => Some (VBits [Some t]) | None => Some (VInt 0) end
  = option_map map_value
      (match bit_or A l with
       | Some t => Some (VBits [Some t]) | None => Some (VInt 0) end).
Proof.
  intros. rewrite bit_or_map. destruct (bit_or A l); reflexivity.
Qed.

Lemma do_cop_map : forall e o a b,
  do_cop B (map_env e) o (map_value a) (map_value b) = option_map map_value (do_cop A e o a b).
Proof.
  intros e o a b.
  assert (L := lor_map e a b).
  destruct a as [l|l|z|p], b as [l'|l'|z'|p'].
  - destruct l as [|t [|t' l]]; [destruct o; try reflexivity; exact L| |destruct o; try reflexivity; exact L].
    destruct l' as [|u [|u' l']]; [destruct o; try reflexivity; exact L| |destruct o; try reflexivity; exact L].
    destruct o; try exact L; cbn [do_cop map_value map arith option_map]; try reflexivity;
      change (en_kind (map_env e)) with (en_kind e); now rewrite (h_bin H).
  - destruct l as [|t [|t' l]]; (destruct o; try reflexivity; exact L).
  - destruct l as [|t [|t' l]]; [destruct o; try reflexivity; exact L| |destruct o; try reflexivity; exact L].
    destruct o; cbn [do_cop map_value map option_map]; try reflexivity.
    destruct (z' =? 0); cbn; [|reflexivity]. now rewrite (h_un H).
  - destruct l as [|t [|t' l]]; (destruct o; try reflexivity; exact L).
  - destruct l' as [|t [|t' l']]; (destruct o; try reflexivity; exact L).
  - destruct o; try reflexivity; try exact L. cbn [do_cop map_value]. rewrite bits_add_map.
    destruct (bits_add l l'); reflexivity.
  - destruct o; try reflexivity; cbn [do_cop map_value].
    + destruct (0 <=? z'); cbn; [|reflexivity]. now rewrite map_app, map_repeat.
    + destruct (0 <=? z'); cbn; [|reflexivity]. now rewrite skipn_map.
    + cbn. now rewrite bits_and_map.
    + destruct r; try reflexivity. destruct (z' =? 0); [|reflexivity]. apply eq0_map.
    + destruct (z' =? 0); [|reflexivity]. apply ne0_map.
  - destruct o; try reflexivity; exact L.
  - destruct l' as [|t [|t' l']]; (destruct o; try reflexivity; exact L).
  - destruct o; try reflexivity; cbn [do_cop map_value].
    + destruct r; try reflexivity. destruct (z =? 0); [|reflexivity]. apply eq0_map.
    + destruct (z =? 0); [|reflexivity]. apply ne0_map.
  - destruct o; reflexivity.
  - destruct o; try reflexivity; exact L.
  - destruct p; destruct l' as [|u [|u' l']]; (destruct o; try reflexivity; exact L).
  - destruct p; (destruct o; try reflexivity; exact L).
  - destruct o; destruct p; try reflexivity.
  - destruct p; (destruct o; try reflexivity; exact L).
Qed.

Lemma do_idx_map : forall s a b,
  do_idx B (map_st s) (map_value a) (map_value b) = option_map map_vt (do_idx A s a b).
Proof.
  intros s a b.
  destruct a as [l|l|z|p], b as [l'|l'|z'|p']; try reflexivity;
    try (destruct p; try reflexivity; fail).
  - cbn [do_idx map_value]. rewrite znth_map. destruct (znth l z'); reflexivity.
  - destruct p; try reflexivity. cbn [do_idx map_value map_addr].
    destruct l' as [|t [|u l']]; cbn [map]; try reflexivity.
    change (APtrAt (h t)) with (map_addr (APtrAt t)). rewrite rd_map.
    destruct (rd A s (APtrAt t)) as [[x tr]|]; reflexivity.
  - destruct p; cbn [do_idx map_value map_addr aadd option_map]; try reflexivity.
    + change (AData (z + z')) with (map_addr (AData (z + z'))) at 1. rewrite rd_map.
      destruct (rd A s (AData (z + z'))) as [[x tr]|]; reflexivity.
    + change (AOff (z + z')) with (map_addr (AOff (z + z'))) at 1. rewrite rd_map.
      destruct (rd A s (AOff (z + z'))) as [[x tr]|]; reflexivity.
    + change (ALoc x (z + z')) with (map_addr (ALoc x (z + z'))) at 1. rewrite rd_map.
      destruct (rd A s (ALoc x (z + z'))) as [[y tr]|]; reflexivity.
Qed.

(** *** Expressions *)

Lemma regs_at_map : forall l v,
  regs_at (map (map h) l) (option_map map_vt v) = option_map map_vt (regs_at l v).
Proof.
  intros l [[v tr]|]; [|reflexivity]. destruct v; try reflexivity.
  cbn [option_map map_vt fst snd map_value regs_at]. rewrite znth_map.
  destruct (znth l z); reflexivity.
Qed.

Fixpoint esz (x : exp) : nat :=
  match x with
  | EVal i | EOth i | EMsk i | EDeref i | EBool i | EToInt i | EStdSqrt i | EMaskType i => S (esz i)
  | EIdx a b | ECop _ a b => S (esz a + esz b)
  | ECall _ l => S (list_sum (map esz l))
  | _ => 1%nat
  end.

Lemma eval_call : forall (V : Type) (D : alg V) e s f args,
  eval D e s (ECall f args)
  = match evals D e s args with
    | Some (vs, t1) =>
        match icall D e s (sem_of f) vs with
        | Some (r, t2) => Some (r, t1 ++ t2) | None => None end
    | None => None end.
Proof.
  intros. cbn [eval].
  assert (E : forall l, (fix go (l : list exp) : option (list (value V) * list (address V)) :=
               match l with
               | [] => Some ([], [])
               | y :: r =>
                   match eval D e s y, go r with
                   | Some (v, t1), Some (vs, t2) => Some (v :: vs, t1 ++ t2)
                   | _, _ => None
                   end
               end) l = evals D e s l).
  { induction l as [|y l IH]; cbn; [reflexivity|]. now rewrite IH. }
  now rewrite E.
Qed.

Lemma evals_map_aux : forall e s l,
  (forall x, In x l -> eval B (map_env e) (map_st s) x = option_map map_vt (eval A e s x)) ->
  evals B (map_env e) (map_st s) l = option_map map_vst (evals A e s l).
Proof.
  intros e s l E. induction l as [|x l IH]; cbn; [reflexivity|].
  rewrite E by (left; reflexivity). rewrite IH by (intros; apply E; now right).
  destruct (eval A e s x) as [[v t1]|]; cbn; [|reflexivity].
  destruct (evals A e s l) as [[vs t2]|]; cbn; [|reflexivity].
  unfold map_vst; cbn. now rewrite map_app.
Qed.

Lemma esz_in : forall x l, In x l -> (esz x <= list_sum (map esz l))%nat.
Proof.
  intros x l; unfold list_sum in *; induction l as [|y l IH]; cbn [In map fold_right]; [tauto|].
  intros [->|I]; [lia|]. specialize (IH I). lia.
Qed.

Lemma eval_map : forall e s x,
  eval B (map_env e) (map_st s) x = option_map map_vt (eval A e s x).
Proof.
  intros e s.
  assert (G : forall n x, (esz x <= n)%nat ->
    eval B (map_env e) (map_st s) x = option_map map_vt (eval A e s x)).
  2: { intro x. exact (G _ x (le_n _)). }
  induction n as [|n IH]; [destruct x; cbn [esz]; intros; lia|].
  intros x L. destruct x; cbn [esz] in L;
    try (cbn [eval]; rewrite !IH by lia); try reflexivity.
  - apply regs_at_map.
  - change (en_oalias (map_env e)) with (en_oalias e).
    destruct (en_oalias e); apply regs_at_map.
  - change (en_malias (map_env e)) with (en_malias e).
    destruct (en_malias e); apply regs_at_map.
  - cbn [eval map_st st_vars]. rewrite lookup_map. destruct (lookup x (st_vars s)); reflexivity.
  - cbn [eval map_env en_par]. rewrite nth_error_map. destruct (nth_error (en_par e) i); reflexivity.
  - destruct (eval A e s x1) as [[v t1]|]; cbn [option_map map_vt fst snd]; [|reflexivity].
    destruct (eval A e s x2) as [[w t2]|]; cbn [option_map map_vt fst snd]; [|reflexivity].
    rewrite do_idx_map. destruct (do_idx A s v w) as [[r t3]|]; cbn; [|reflexivity].
    unfold map_vt; cbn. now rewrite !map_app.
  - destruct (eval A e s x) as [[v t1]|]; cbn [option_map map_vt fst snd]; [|reflexivity].
    destruct v; cbn [map_value]; try reflexivity. rewrite rd_map.
    destruct (rd A s a) as [[r t2]|]; cbn; [|reflexivity].
    unfold map_vt; cbn. now rewrite map_app.
  - destruct (eval A e s x1) as [[v t1]|]; cbn [option_map map_vt fst snd]; [|reflexivity].
    destruct (eval A e s x2) as [[w t2]|]; cbn [option_map map_vt fst snd]; [|reflexivity].
    rewrite do_cop_map. destruct (do_cop A e o v w); cbn; [|reflexivity].
    unfold map_vt; cbn. now rewrite map_app.
  - destruct (eval A e s x) as [[v t1]|]; cbn [option_map map_vt fst snd]; [|reflexivity].
    rewrite as_cond_map. destruct (as_cond A e v) as [[z|t]|]; reflexivity.
  - destruct (eval A e s x) as [[v t1]|]; cbn [option_map map_vt fst snd]; [|reflexivity].
    destruct v as [[|t [|u l]]|l|z|a]; try reflexivity. cbn. unfold map_vt; cbn. now rewrite (h_un H).
  - destruct (eval A e s x) as [[v t1]|]; cbn [option_map map_vt fst snd]; [|reflexivity].
    destruct v as [[|t [|u l]]|l|z|a]; try reflexivity. cbn. unfold map_vt; cbn.
    destruct (en_kind e); now rewrite !(h_un H).
  - destruct (eval A e s x) as [[v t1]|]; cbn [option_map map_vt fst snd]; [|reflexivity].
    destruct v as [l|l|z|a]; try reflexivity. cbn. unfold map_vt; cbn. now rewrite firstn_map.
  - rewrite !eval_call, (evals_map_aux e s es).
    2: { intros x I. apply IH. specialize (esz_in _ _ I). lia. }
    destruct (evals A e s es) as [[vs t1]|]; cbn [option_map map_vst fst snd]; [|reflexivity].
    rewrite icall_map. destruct (icall A e s (sem_of f) vs) as [[r t2]|]; cbn; [|reflexivity].
    unfold map_vt; cbn. now rewrite map_app.
Qed.

Lemma evals_map : forall e s l,
  evals B (map_env e) (map_st s) l = option_map map_vst (evals A e s l).
Proof. intros. apply evals_map_aux. intros. apply eval_map. Qed.

(** *** Statements *)

Lemma add_reads_map : forall tr s,
  add_reads (map map_addr tr) (map_st s) = map_st (add_reads tr s).
Proof. intros. unfold add_reads, map_st; cbn. now rewrite map_app, map_rev. Qed.
Lemma add_writes_map : forall ws s,
  add_writes (map map_write ws) (map_st s) = map_st (add_writes ws s).
Proof. intros. unfold add_writes, map_st; cbn. now rewrite map_app, map_rev. Qed.
Lemma set_val_map : forall l s,
  set_val (map (map h) l) (map_st s) = map_st (set_val l s).
Proof. reflexivity. Qed.
Lemma set_var_map : forall x v s,
  set_var x (map_value v) (map_st s) = map_st (set_var x v s).
Proof. reflexivity. Qed.

Lemma assign_map : forall e s l v,
  assign B (map_env e) (map_st s) l (map_value v) = option_map map_st (assign A e s l v).
Proof.
  intros e s l v. destruct l; cbn [assign]; rewrite ?eval_map.
  - destruct (eval A e s i) as [[[| |z|] tr]|]; cbn [option_map map_vt fst snd map_value]; try reflexivity.
    destruct v; cbn [map_value]; try reflexivity. cbn [map_st st_val]. rewrite map_length.
    destruct (_ && _); [|reflexivity]. cbn [option_map].
    now rewrite <- add_reads_map, <- set_val_map, map_replace_nth.
  - now rewrite set_var_map.
  - destruct (eval A e s i) as [[[| |z|] tr]|]; cbn [option_map map_vt fst snd map_value]; try reflexivity.
    destruct v as [[|t [|u l]]|l|z'|a]; cbn [map_value map]; try reflexivity.
    cbn [map_st st_vars]. rewrite lookup_map.
    destruct (lookup x (st_vars s)) as [[r| | |]|]; cbn [option_map map_value]; try reflexivity.
    rewrite map_length. destruct (_ && _); [|reflexivity]. cbn [option_map].
    now rewrite <- add_reads_map, <- set_var_map; cbn [map_value]; rewrite map_replace_nth.
  - destruct (eval A e s a) as [[[| | |p] tr]|]; cbn [option_map map_vt fst snd map_value]; try reflexivity.
    destruct v as [[|t [|u l]]|l|z'|a']; cbn [map_value map]; try reflexivity.
    cbn [option_map]. now rewrite <- add_writes_map, <- add_reads_map.
Qed.

Section Exec.
Context (mkA : list (value T) -> option (list (list T)))
        (mkB : list (value U) -> option (list (list U))).
Context (MK : forall vs, mkB (map map_value vs) = option_map (map (map h)) (mkA vs)).

Lemma bind_run_map : forall o k k',
  (forall s, k' (map_st s) = option_map map_outcome (k s)) ->
  bind_run (option_map map_outcome o) k' = option_map map_outcome (bind_run o k).
Proof. intros [[s|s v|s r]|] k k' E; cbn; auto. Qed.

Lemma iter_run_map : forall n f f' s,
  (forall s, f' (map_st s) = option_map map_outcome (f s)) ->
  iter_run n f' (map_st s) = option_map map_outcome (iter_run n f s).
Proof.
  induction n; intros f f' s E; cbn; [reflexivity|]. rewrite E.
  apply bind_run_map. intro; now apply IHn.
Qed.

Fixpoint ssz (x : stmt) : nat :=
  match x with
  | SIf _ a b => S (list_sum (map ssz a) + list_sum (map ssz b))
  | SFor _ b => S (list_sum (map ssz b))
  | _ => 1%nat
  end.

Lemma ssz_in : forall x l, In x l -> (ssz x <= list_sum (map ssz l))%nat.
Proof.
  intros x l; unfold list_sum in *; induction l as [|y l IH]; cbn [In map fold_right]; [tauto|].
  intros [->|I]; [lia|]. specialize (IH I). lia.
Qed.

Lemma run_local : forall (V : Type) (D : alg V) mk e l s,
  (fix run (l : list stmt) (s : st V) : option (outcome V) :=
     match l with
     | [] => Some (Running s)
     | y :: r => bind_run (exec D mk e s y) (run r)
     end) l s = run D mk e l s.
Proof.
  intros V D mk e. induction l as [|y l IH]; intro s; [reflexivity|].
  cbn [run]. destruct (exec D mk e s y) as [[s'| |]|]; cbn [bind_run]; try reflexivity. apply IH.
Qed.

Lemma iter_run_ext : forall (V : Type) n f g (s : st V),
  (forall s, f s = g s) -> iter_run n f s = iter_run n g s.
Proof.
  induction n; intros f g s E; cbn; [reflexivity|]. rewrite E.
  destruct (g s) as [[s'| |]|]; cbn; auto.
Qed.

Lemma exec_if : forall (V : Type) (D : alg V) mk e s c s1 s2,
  exec D mk e s (SIf c s1 s2)
  = match eval D e s c with
    | Some (VInt z, tr) =>
        if z =? 0 then run D mk e s2 (add_reads tr s) else run D mk e s1 (add_reads tr s)
    | Some (VBits l, tr) =>
        match bit_or D l, s1, s2 with
        | Some t, [SSet (LVal i) a], [] =>
            match eval D e s i, eval D e s a with
            | Some (VInt z, []), Some (VReg r, []) =>
                match znth (st_val s) z with
                | Some old =>
                    if Nat.eqb (length r) (length old)
                    then Some (Running (add_reads tr
                           (set_val (replace_nth (Z.to_nat z)
                                       (map2 (a_sel D t) r old) (st_val s)) s)))
                    else None
                | None => None
                end
            | _, _ => None
            end
        | _, _, _ => None
        end
    | _ => None
    end.
Proof.
  intros. cbn [exec]. destruct (eval D e s c) as [[[|l|z|] tr]|]; try reflexivity.
  destruct (z =? 0); apply run_local.
Qed.

Lemma exec_for : forall (V : Type) (D : alg V) mk e s n b,
  exec D mk e s (SFor n b)
  = match eval D e s n with
    | Some (VInt z, tr) => iter_run (Z.to_nat z) (run D mk e b) (add_reads tr s)
    | _ => None
    end.
Proof.
  intros. cbn [exec]. destruct (eval D e s n) as [[[|l|z|] tr]|]; try reflexivity.
  apply iter_run_ext. intro; apply run_local.
Qed.

Lemma run_map_aux : forall e l,
  (forall x, In x l -> forall s,
     exec B mkB (map_env e) (map_st s) x = option_map map_outcome (exec A mkA e s x)) ->
  forall s, run B mkB (map_env e) l (map_st s) = option_map map_outcome (run A mkA e l s).
Proof.
  intros e l. induction l as [|x l IH]; intros E s; cbn; [reflexivity|].
  rewrite E by (left; reflexivity). apply bind_run_map. intro. apply IH.
  intros; apply E; now right.
Qed.

Lemma assign_run_map : forall e s l v,
  match assign B (map_env e) (map_st s) l (map_value v) with
  | Some s' => Some (Running s') | None => None end
  = option_map map_outcome
      (match assign A e s l v with Some s' => Some (Running s') | None => None end).
Proof. intros. rewrite assign_map. destruct (assign A e s l v); reflexivity. Qed.

Lemma exec_map : forall e x s,
  exec B mkB (map_env e) (map_st s) x = option_map map_outcome (exec A mkA e s x).
Proof.
  intro e.
  assert (G : forall n x, (ssz x <= n)%nat -> forall s,
    exec B mkB (map_env e) (map_st s) x = option_map map_outcome (exec A mkA e s x)).
  2: { intro x. exact (G _ x (le_n _)). }
  induction n as [|n IH]; [destruct x; cbn [ssz]; intros; lia|].
  assert (R : forall l, (list_sum (map ssz l) <= n)%nat -> forall s,
    run B mkB (map_env e) l (map_st s) = option_map map_outcome (run A mkA e l s)).
  { intros l L. apply run_map_aux. intros x I. apply IH. specialize (ssz_in _ _ I). lia. }
  intros x L s. destruct x; cbn [ssz] in L.
  - cbn [exec option_map map_outcome]. rewrite <- set_var_map. cbn [map_value].
    now rewrite map_repeat, (h_undef H).
  - cbn [exec]. rewrite eval_map.
    destruct (eval A e s e0) as [[v tr]|]; cbn [option_map map_vt fst snd]; [|reflexivity].
    rewrite add_reads_map. apply assign_run_map.
  - cbn [exec]. destruct (lhs_exp l) as [le|]; [|reflexivity]. rewrite eval_map.
    destruct (eval A e s (ECop o le e0)) as [[v tr]|]; cbn [option_map map_vt fst snd]; [|reflexivity].
    rewrite add_reads_map. apply assign_run_map.
  - cbn [exec]. destruct e0; try reflexivity. rewrite evals_map.
    destruct (evals A e s es) as [[vs tr]|]; cbn [option_map map_vst fst snd]; [|reflexivity].
    rewrite ieffect_map. destruct (ieffect e (sem_of f) vs); cbn [option_map]; [|reflexivity].
    now rewrite add_reads_map, add_writes_map.
  - cbn [exec]. rewrite eval_map.
    destruct (eval A e s a) as [[[| | |p] tr]|]; cbn [option_map map_vt fst snd map_value]; try reflexivity.
    rewrite aligned_map. destruct (aligned e p n0); reflexivity.
  - rewrite !exec_if, eval_map.
    destruct (eval A e s c) as [[[|l|z|] tr]|]; cbn [option_map map_vt fst snd map_value]; try reflexivity.
    + rewrite bit_or_map. destruct (bit_or A l) as [t|]; cbn [option_map]; [|reflexivity].
      destruct s1 as [|[] [|]]; try reflexivity; [|destruct l0; reflexivity].
      destruct l0; try reflexivity. destruct s2; try reflexivity.
      rewrite !eval_map.
      destruct (eval A e s i) as [[[| |z|] [|]]|]; cbn [option_map map_vt fst snd map_value map]; try reflexivity.
      destruct (eval A e s e0) as [[[r| | |] [|]]|]; cbn [option_map map_vt fst snd map_value map]; try reflexivity.
      cbn [map_st st_val]. rewrite znth_map.
      destruct (znth (st_val s) z) as [old|]; cbn [option_map]; [|reflexivity].
      rewrite !map_length. destruct (Nat.eqb _ _); [|reflexivity].
      cbn [option_map map_outcome]. rewrite <- add_reads_map, <- set_val_map, map_replace_nth.
      rewrite (map2_map _ _ _ _ _ _ _ (a_sel A t) h h h) by (intros; symmetry; apply (h_sel H)).
      reflexivity.
    + rewrite add_reads_map. destruct (z =? 0); apply R; lia.
  - rewrite !exec_for, eval_map.
    destruct (eval A e s n0) as [[[| |z|] tr]|]; cbn [option_map map_vt fst snd map_value]; try reflexivity.
    rewrite add_reads_map. apply iter_run_map. intro; apply R; lia.
  - cbn [exec]. rewrite eval_map.
    destruct (eval A e s e0) as [[v tr]|]; cbn [option_map map_vt fst snd]; [|reflexivity].
    now rewrite add_reads_map.
  - cbn [exec]. rewrite eval_map.
    destruct (eval A e s e0) as [[v tr]|]; cbn [option_map map_vt fst snd]; [|reflexivity].
    now rewrite add_reads_map.
  - cbn [exec]. rewrite evals_map.
    destruct (evals A e s es) as [[vs tr]|]; cbn [option_map map_vst fst snd]; [|reflexivity].
    rewrite MK. destruct (mkA vs); cbn [option_map]; [|reflexivity].
    now rewrite add_reads_map.
Qed.

Lemma run_map : forall e l s,
  run B mkB (map_env e) l (map_st s) = option_map map_outcome (run A mkA e l s).
Proof. intros e l. apply run_map_aux. intros; apply exec_map. Qed.

End Exec.

(** *** Calls *)

Definition map_call (k : call T) : call U :=
  mkCall (map (map h) (k_val k)) (map (map h) (k_other k)) (map (map h) (k_mask k))
         (map (option_map h) (k_maskint k)) (map (map h) (k_par k)) (h (k_arg k))
         (k_i k) (k_mis k) (k_omis k) (k_oalias k) (k_malias k).

Definition map_rvalue (r : rvalue T) : rvalue U :=
  match r with
  | RVoid => RVoid | RVal v => RVal (map_value v) | RVec l => RVec (map (map h) l)
  end.

Definition map_result (r : result T) : result U :=
  mkRes (map (map h) (r_val r)) (map_rvalue (r_ret r))
        (map map_addr (r_reads r)) (map map_write (r_writes r)).

Lemma build_map : forall c vs,
  build B c (map map_value vs) = option_map (map (map h)) (build A c vs).
Proof.
  intros c vs. unfold build.
  rewrite (omap_map _ _ _ _ as_reg as_reg map_value (map h)) by (intros []; reflexivity).
  destruct (omap as_reg vs) as [ps|]; cbn [option_map]; [|reflexivity].
  set (e := mkEnv (c_kind c) (mask_bits c) [] [] [] ps
              (match ps with [[t]] => t | _ => a_undef A end) 0 0 false false).
  match goal with |- context [run B _ ?x _ _] => replace x with (map_env e) end.
  2: { unfold e, map_env; cbn. f_equal. destruct ps as [|[|t [|]] [|]]; cbn; try apply (h_undef H).
       reflexivity. }
  match goal with |- context [run B _ _ _ ?x] =>
    replace x with (map_st (mkSt (repeat (repeat (a_undef A) (c_lanes c)) (c_nreg c)) [] [] [])) end.
  2: { unfold map_st; cbn. now rewrite !map_repeat, (h_undef H). }
  rewrite (run_map (fun _ => None) (fun _ => None)) by reflexivity.
  destruct (run A _ _ _ _) as [[s|s v|s r]|]; reflexivity.
Qed.

Lemma finish_map : forall o,
  finish (option_map map_outcome o) = option_map map_result (finish o).
Proof.
  intros [[s|s v|s r]|]; cbn; try reflexivity; unfold map_result; cbn; now rewrite !map_rev.
Qed.

Lemma call_body_map : forall c b k,
  call_body B c b (map_call k) = option_map map_result (call_body A c b k).
Proof.
  intros. unfold call_body.
  change (call_env c (map_call k)) with (map_env (call_env c k)).
  change (mkSt (k_val (map_call k)) [("i"%string, VInt (k_i (map_call k)))] [] [])
    with (map_st (mkSt (k_val k) [("i"%string, VInt (k_i k))] [] [])).
  rewrite (run_map (build A c)) by (intro; apply build_map). apply finish_map.
Qed.

Theorem call_meth_map : forall c m k,
  call_meth B c m (map_call k) = option_map map_result (call_meth A c m k).
Proof.
  intros. unfold call_meth. destruct (c_meth c m); [|reflexivity]. apply call_body_map.
Qed.

Definition map_item (x : string + T) : string + U :=
  match x with inl s => inl s | inr t => inr (h t) end.

Theorem call_print_map : forall c k,
  call_print B c (map_call k) = option_map (map map_item) (call_print A c k).
Proof.
  intros. unfold call_print. induction (c_print c) as [|[s|x] l IH]; cbn [print_items].
  - reflexivity.
  - rewrite IH. destruct (print_items A c k l); reflexivity.
  - change (call_env c (map_call k)) with (map_env (call_env c k)).
    change (mkSt (k_val (map_call k)) [] [] []) with (map_st (mkSt (k_val k) [] [] [])).
    rewrite eval_map.
    destruct (eval A _ _ x) as [[[[|t [|]]| | |] tr]|]; cbn [option_map map_vt fst snd map_value map];
      try reflexivity.
    rewrite IH. destruct (print_items A c k l); reflexivity.
Qed.

End Hom.

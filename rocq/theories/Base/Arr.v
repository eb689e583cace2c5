(** numpy arrays in C (row-major) order: a shape and a flat list of elements. *)
From Verif Require Import Base.Py.

(** 2-d array *)
Record arr2 (A : Type) : Type := mk2 { a2x : nat; a2y : nat; a2d : list A }.
Arguments mk2 {A} a2x a2y a2d.
Arguments a2x {A} a.
Arguments a2y {A} a.
Arguments a2d {A} a.

Definition wf2 {A} (a : arr2 A) : Prop := length (a2d a) = a2x a * a2y a.

(** [a[i, j]] with Python ints: negative indices count from the end *)
Definition get2 {A} (a : arr2 A) (i j : Z) : res A :=
  match norm_index (a2x a) i, norm_index (a2y a) j with
  | Some i', Some j' =>
      match nth_error (a2d a) (i' * a2y a + j') with Some x => Ok x | None => Raise IndexError end
  | _, _ => Raise IndexError
  end.

(** [a[i, j] = v] *)
Definition set2 {A} (a : arr2 A) (i j : Z) (v : A) : res (arr2 A) :=
  match norm_index (a2x a) i, norm_index (a2y a) j with
  | Some i', Some j' => Ok (mk2 (a2x a) (a2y a) (replace_nth (a2d a) (i' * a2y a + j') v))
  | _, _ => Raise IndexError
  end.

(** [np.zeros((x, y))], [np.empty((x, y))] (content given) *)
Definition full2 {A} (x y : nat) (v : A) : arr2 A := mk2 x y (repeat v (x * y)).

(** [l.reshape(x, y)] of a 1-d array *)
Definition reshape2 {A} (l : list A) (x y : nat) : res (arr2 A) :=
  if Nat.eqb (length l) (x * y) then Ok (mk2 x y l) else Raise ValueError.

(** [a[x1:x2, y1:y2]] *)
Definition slice2 {A} (a : arr2 A) (x1 x2 y1 y2 : Z) : arr2 A :=
  let i1 := slice_bound (a2x a) x1 in
  let i2 := slice_bound (a2x a) x2 in
  let j1 := slice_bound (a2y a) y1 in
  let j2 := slice_bound (a2y a) y2 in
  mk2 (i2 - i1) (j2 - j1)
      (flat_map (fun i => firstn (j2 - j1) (skipn (i * a2y a + j1) (a2d a)))
                (seq i1 (i2 - i1))).

(** [a[x1:x2, y1:y2] = v] for non-negative bounds *)
Definition assign_block {A} (a : arr2 A) (x1 x2 y1 y2 : nat) (v : A) : arr2 A :=
  mk2 (a2x a) (a2y a)
      (map (fun '(n, old) =>
              let i := n / a2y a in
              let j := n mod a2y a in
              if ((x1 <=? i) && (i <? x2) && (y1 <=? j) && (j <? y2))%nat then v else old)
           (enumerate (a2d a))).

Definition map2 {A B} (f : A -> B) (a : arr2 A) : arr2 B := mk2 (a2x a) (a2y a) (map f (a2d a)).

(** 3-d array, shape (t, x, y); element (t, i, j) is at flat position (t*x + i)*y + j *)
Record arr3 (A : Type) : Type := mk3 { a3t : nat; a3x : nat; a3y : nat; a3d : list A }.
Arguments mk3 {A} a3t a3x a3y a3d.
Arguments a3t {A} a.
Arguments a3x {A} a.
Arguments a3y {A} a.
Arguments a3d {A} a.

Definition wf3 {A} (a : arr3 A) : Prop := length (a3d a) = a3t a * a3x a * a3y a.

(** [a[t, i, j]] *)
Definition get3 {A} (a : arr3 A) (t i j : Z) : res A :=
  match norm_index (a3t a) t, norm_index (a3x a) i, norm_index (a3y a) j with
  | Some t', Some i', Some j' =>
      match nth_error (a3d a) ((t' * a3x a + i') * a3y a + j') with
      | Some x => Ok x | None => Raise IndexError end
  | _, _, _ => Raise IndexError
  end.

(** [a[:, i, j]] *)
Definition series3 {A} (a : arr3 A) (i j : Z) : res (list A) :=
  match norm_index (a3x a) i, norm_index (a3y a) j with
  | Some _, Some _ => mapM (fun t => get3 a (Z.of_nat t) i j) (seq 0 (a3t a))
  | _, _ => Raise IndexError
  end.

(** [a[:, i, j] = s]: numpy requires the lengths to agree, or a length-1 series, which is
    broadcast. *)
Definition setseries3 {A} (a : arr3 A) (i j : Z) (s : list A) : res (arr3 A) :=
  match norm_index (a3x a) i, norm_index (a3y a) j with
  | Some i', Some j' =>
      let s' := match s with [v] => repeat v (a3t a) | _ => s end in
      if Nat.eqb (length s') (a3t a)
      then Ok (mk3 (a3t a) (a3x a) (a3y a)
                   (fold_left (fun d '(t, v) => replace_nth d ((t * a3x a + i') * a3y a + j') v)
                              (enumerate s') (a3d a)))
      else Raise ValueError
  | _, _ => Raise IndexError
  end.

(** [a[t1:t2, x1:x2, y1:y2]]; [None] stands for a full slice [:] *)
Definition slice3 {A} (a : arr3 A) (st sx sy : option (Z * Z)) : arr3 A :=
  let lo n (s : option (Z * Z)) := match s with Some (l, _) => slice_bound n l | None => 0 end in
  let hi n (s : option (Z * Z)) := match s with Some (_, h) => slice_bound n h | None => n end in
  let t1 := lo (a3t a) st in let t2 := hi (a3t a) st in
  let i1 := lo (a3x a) sx in let i2 := hi (a3x a) sx in
  let j1 := lo (a3y a) sy in let j2 := hi (a3y a) sy in
  mk3 (t2 - t1) (i2 - i1) (j2 - j1)
      (flat_map (fun t =>
         flat_map (fun i => firstn (j2 - j1) (skipn ((t * a3x a + i) * a3y a + j1) (a3d a)))
                  (seq i1 (i2 - i1)))
         (seq t1 (t2 - t1))).

(** [np.zeros((t, x, y))] *)
Definition full3 {A} (t x y : nat) (v : A) : arr3 A := mk3 t x y (repeat v (t * x * y)).

Definition map3 {A B} (f : A -> B) (a : arr3 A) : arr3 B :=
  mk3 (a3t a) (a3x a) (a3y a) (map f (a3d a)).

(** [l.reshape(t, x, y)] of a 1-d array *)
Definition reshape3 {A} (l : list A) (t x y : nat) : res (arr3 A) :=
  if Nat.eqb (length l) (t * x * y) then Ok (mk3 t x y l) else Raise ValueError.

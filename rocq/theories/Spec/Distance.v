(** Vocabulary for distance matrices, stated without the methods of the distance measures. *)
From Coq Require Import String.
From Verif Require Import Base.Py Base.Arr Base.Float Model.Region Model.Distance Spec.Grid.
Local Notation length := List.length.

(** an n-by-n matrix *)
Definition square (n : nat) (M : mat) : Prop :=
  m_cols M = n /\ length (m_rows M) = n /\ forall row, In row (m_rows M) -> length row = n.

(** the value in row i, column j *)
Definition entry (M : mat) (i j : nat) : option fnum :=
  match nth_error (m_rows M) i with Some row => nth_error row j | None => None end.

(** row-major index of a point in a grid with y columns *)
Definition index_of (y : nat) (pt : point) : nat := Z.to_nat (fst pt) * y + Z.to_nat (snd pt).

(** equal matrices, as real numbers *)
Definition mat_eqv (M N : mat) : Prop :=
  m_cols M = m_cols N /\ Forall2 (Forall2 feqv) (m_rows M) (m_rows N).

(** the distances in row [i] at the columns [js] *)
Definition row_at (M : mat) (i : nat) (js : list nat) (l : list fnum) : Prop :=
  Forall2 (fun j v => entry M i j = Some v) js l.

(** the distance measure has matrix [M] at hand, or obtains it from the file of the region's metadata *)
Definition provides (env : denv) (md : option dmeta) (o : dobj) (M : mat) : Prop :=
  d_matrix o = Some M \/
  d_matrix o = None /\ exists r o', load_distance_matrix_md env md o = (Ok r, o') /\ d_matrix o' = Some M.

(** [M] is [M0] with weight * (euclidean distance of the two points) added once to every entry, for a region of
    x by y points *)
Definition weighted_once (norm2 : Z -> Z -> fnum) (w : fnum) (x y : nat) (M0 M : mat) : Prop :=
  square (x * y) M /\
  forall i j d0, entry M0 i j = Some d0 ->
    entry M i j = Some (fadd d0 (fmul (norm2 (Z.of_nat (j / y) - Z.of_nat (i / y))%Z (Z.of_nat (j mod y) - Z.of_nat (i mod y))%Z) w)).

(** a rectangle of x by y points *)
Definition spans (g : rect) (x y : nat) : Prop := (x2 g - x1 g = Z.of_nat x)%Z /\ (y2 g - y1 g = Z.of_nat y)%Z.

(** histories of one distance measure used for one region [g] *)
Inductive dop :=
| OpLoad (filename : string)
| OpWeight
| OpCompute (r : stregion fnum)
| OpDistances (r : stregion fnum) (filename : option string) (pt : point) (indices : list nat) (only_if_precalculated : bool).

Definition run_op (env : denv) (g : rect) (op : dop) (o : dobj) : dobj :=
  match op with
  | OpLoad f => snd (load_distance_matrix_2d env f g o)
  | OpWeight => snd (weight_distance_matrix env g o)
  | OpCompute r => snd (compute_distance_matrix env (Data3 r) o)
  | OpDistances r f pt js pre => snd (distances_to_point env r (option_map (fun f => DMeta f g) f) pt js true pre o)
  end.
Definition run_ops (env : denv) (g : rect) (ops : list dop) (o : dobj) : dobj := fold_left (fun o op => run_op env g op o) ops o.

(** the regions given to the operations have the size of [g] *)
Definition op_region (x y : nat) (op : dop) : Prop :=
  match op with
  | OpLoad _ | OpWeight => True
  | OpCompute r | OpDistances r _ _ _ _ => exists d, r = TPlain d /\ wf3 d /\ a3x d = x /\ a3y d = y
  end.

(** where unweighted matrices come from *)
Definition source (env : denv) (x y : nat) (M : mat) : Prop :=
  square (x * y) M /\
  ((exists f, np_load env f = Ok M) \/
   (exists d, wf3 d /\ a3x d = x /\ a3y d = y /\ matrix_of_region (env_measure env) (env_junk env) (TPlain d) = Ok M)).

(** [best] is the first of the points [pts] with least cost; none has a cost below infinity if there is no best *)
Definition first_least (cost : point -> fnum) (pts : list point) (best : option point) : Prop :=
  match best with
  | None => forall p, In p pts -> flt (cost p) PInf = false
  | Some c => flt (cost c) PInf = true /\
      exists before after, pts = before ++ c :: after /\
        (forall p, In p before -> fle (cost p) (cost c) = false) /\
        (forall p, In p after -> flt (cost p) (cost c) = false)
  end.

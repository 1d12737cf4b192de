(** Cached nearest-neighbour and forward regridding.
    src/CachedInterpolation.cc, src/CachedForwardInterpolation.cc, src/MathUtils.cc.
    Positions and field values are exact rationals; [None] is NaN.  Rounding of
    floating-point sums is not modelled.  Index arithmetic is unbounded ([N]). *)
From Coq Require Import ZArith NArith QArith Qcanon List Bool Lia.
From Verif Require Import Base Rounding.
Import ListNotations.
Local Open Scope N_scope.

(** src/CachedInterpolation.cc:257, src/CachedForwardInterpolation.cc:50:
    "const size_t INVALID = ~0u" is 2^32-1, not the largest size_t. *)
Definition INVALID : N := 2 ^ 32 - 1.

(** include/fimex/MathUtils.h:40-43 round(double): lround narrowed to int;
    src/MathUtils.cc:30-46 RoundAndClamp(0, maxi, INVALID): the int becomes a size_t.
    [nan] is the unspecified result of lround for NaN. *)
Definition round_clamp (nan : Z) (maxi : N) (p : option Q) : N :=
  let r := to_size (to_int32 (match p with Some q => lround q | None => nan end)) in
  if r <=? maxi then r else INVALID.

(** Bounding rectangle of used cells. *)
Record range := mkRange { minX : N; maxX : N; minY : N; maxY : N }.

(** src/CachedInterpolation.cc:275-282 and minimaximize (include/fimex/min_max.h) *)
Definition widen (r : range) (ix iy : N) : range :=
  {| minX := if ix <? minX r then ix else minX r;
     maxX := if maxX r <? ix then ix else maxX r;
     minY := if iy <? minY r then iy else minY r;
     maxY := if maxY r <? iy then iy else maxY r |}.

Definition EXTEND : N := 2.

(** src/CachedInterpolation.cc:288-301, src/CachedForwardInterpolation.cc:164-171:
    widen the rectangle by two cells; use it if it cuts something off and is large enough.
    Returns the offset and the reduced size. *)
Definition shrink (inX inY : N) (r : range) : option (N * N * (N * N)) :=
  let x0 := if EXTEND <? minX r then minX r - EXTEND else 0 in
  let y0 := if EXTEND <? minY r then minY r - EXTEND else 0 in
  let x1 := N.min (inX - 1) (maxX r + EXTEND) in
  let y1 := N.min (inY - 1) (maxY r + EXTEND) in
  if ((0 <? x0) || (0 <? y0) || (x1 <? inX - 1) || (y1 <? inY - 1))
     && (x0 + 2 * EXTEND <=? x1) && (y0 + 2 * EXTEND <=? y1)
  then Some (x0, y0, (x1 - x0 + 1, y1 - y0 + 1)) else None.

(** src/CachedInterpolation.cc:305-306, src/CachedForwardInterpolation.cc:174-175 *)
Definition remap (inX x0 y0 redX i : N) : N :=
  (i / inX - y0) * redX + (i mod inX - x0).

(** ** Nearest neighbour *)

(** state of a CachedNNInterpolation: the index map, the (reduced) input size and the offset *)
Record nn := mkNN { nn_map : list N; nn_x0 : N; nn_y0 : N; nn_inX : N; nn_inY : N }.

(** src/CachedInterpolation.cc:272-274 *)
Definition nn_index (nan : Z) (inX inY : N) (p : option Q * option Q) : N :=
  let ix := round_clamp nan (inX - 1) (fst p) in
  let iy := round_clamp nan (inY - 1) (snd p) in
  if negb (ix =? INVALID) && negb (iy =? INVALID) then iy * inX + ix else INVALID.

(** src/CachedInterpolation.cc:271-284, the tracking of the used range *)
Definition nn_track (nan : Z) (inX inY : N) (r : range) (p : option Q * option Q) : range :=
  let ix := round_clamp nan (inX - 1) (fst p) in
  let iy := round_clamp nan (inY - 1) (snd p) in
  if negb (ix =? INVALID) && negb (iy =? INVALID) then widen r ix iy else r.

(** src/CachedInterpolation.cc:262-315, the constructor *)
Definition nn_construct (nan : Z) (inX inY : N) (pts : list (option Q * option Q)) : nn :=
  let m := map (nn_index nan inX inY) pts in
  let r := fold_left (nn_track nan inX inY) pts (mkRange inX 0 inY 0) in
  match shrink inX inY r with
  | None => mkNN m 0 0 inX inY
  | Some (x0, y0, (redX, redY)) =>
      mkNN (map (fun i => if i =? INVALID then i else remap inX x0 y0 redX i) m)
           x0 y0 redX redY
  end.

(** src/CachedInterpolation.cc:317-337, interpolateValues; [undef] is MIFI_UNDEFINED_F.
    Reading outside [field] is [UB], as is the division by an empty layer. *)
Definition nn_interpolate {A} (undef : A) (g : nn) (field : list A) : outcome (list A) :=
  let inLayer := N.to_nat (nn_inX g * nn_inY g) in
  if Nat.eqb inLayer 0 then UB
  else
    let inZ := Nat.div (length field) inLayer in
    omap (@concat A)
      (omapM (fun z =>
         omapM (fun i => if i =? INVALID then Ok undef
                         else rd (nth_error field (z * inLayer + N.to_nat i)%nat)) (nn_map g))
        (seq 0 inZ)).

(** src/interpolation.c:251-265 mifi_get_values_f and 229-233 mifi_3d_array_pos: all levels of
    one point; overflow of the int position is not modelled *)
Definition get_values_f {A} (nan : Z) (undef : A) (infield : list A) (x y : option Q)
           (ix iy : Z) (iz : nat) : outcome (list A) :=
  let lr p := to_int32 (match p with Some q => lround q | None => nan end) in
  let rx := lr x in
  let ry := lr y in
  if ((0 <=? rx) && (rx <? ix) && (0 <=? ry) && (ry <? iy))%Z
  then omapM (fun z => rd (nth_error infield (Z.to_nat ((Z.of_nat z * iy + ry) * ix + rx))))
             (seq 0 iz)
  else Ok (repeat undef iz).

(** ** Aggregators *)

(** a field value; [None] is NaN = MIFI_UNDEFINED_F *)
Definition value := option Qc.

Definition vadd (a b : value) : value :=
  match a, b with Some x, Some y => Some (x + y)%Qc | _, _ => None end.

(** a < b, false when one of them is NaN *)
Definition vlt (a b : value) : bool :=
  match a, b with
  | Some x, Some y => match (x ?= y)%Qc with Lt => true | _ => false end
  | _, _ => false
  end.

Inductive aggkind := ASum | AMean | AMin | AMax | AMedian.

(** src/CachedForwardInterpolation.cc:63-67 and 113-116: counter, value and list of values *)
Record agg := mkAgg { a_count : nat; a_val : value; a_values : list value }.

(** the state after construction (line 67; the constructor's read of the uninitialised
    counter is not modelled) *)
Definition agg0 : agg := mkAgg 0 (Some 0%Qc) [].

(** src/CachedForwardInterpolation.cc:81-85, 95-100, 105-110, 117 *)
Definition push (k : aggkind) (a : agg) (f : value) : agg :=
  match k with
  | ASum | AMean => mkAgg (S (a_count a)) (vadd (a_val a) f) (a_values a)
  | AMin => mkAgg (S (a_count a))
                  (if Nat.eqb (a_count a) 0 || vlt f (a_val a) then f else a_val a) (a_values a)
  | AMax => mkAgg (S (a_count a))
                  (if Nat.eqb (a_count a) 0 || vlt (a_val a) f then f else a_val a) (a_values a)
  | AMedian => mkAgg (a_count a) (a_val a) (a_values a ++ [f])
  end.

Fixpoint insert (x : Qc) (l : list Qc) : list Qc :=
  match l with
  | [] => [x]
  | y :: l' => match (x ?= y)%Qc with Gt => y :: insert x l' | _ => x :: l end
  end.
Definition isort (l : list Qc) : list Qc := fold_right insert [] l.

Fixpoint all_some {A} (l : list (option A)) : option (list A) :=
  match l with
  | [] => Some []
  | Some a :: l' => match all_some l' with Some r => Some (a :: r) | None => None end
  | None :: _ => None
  end.

(** the element std::nth_element places at position k: the one that is there after sorting;
    with a NaN operator< is no strict weak ordering and the call is undefined *)
Definition nth_sorted (k : nat) (l : list value) : outcome value :=
  match all_some l with
  | None => UB
  | Some qs => match nth_error (isort qs) k with Some q => Ok (Some q) | None => UB end
  end.

(** src/CachedForwardInterpolation.cc:69-76 reset *)
Definition reset (a : agg) (v : value) : outcome (value * agg) :=
  if Nat.eqb (a_count a) 0 then Ok (None, mkAgg 0 (Some 0%Qc) (a_values a))
  else Ok (v, mkAgg 0 (Some 0%Qc) (a_values a)).

Definition vdiv (v : value) (n : nat) : value :=
  match v with Some x => Some (x / Q2Qc (inject_Z (Z.of_nat n)))%Qc | None => None end.

(** src/CachedForwardInterpolation.cc:68, 90, 121-130 *)
Definition get_and_reset (k : aggkind) (a : agg) : outcome (value * agg) :=
  match k with
  | ASum | AMin | AMax => reset a (a_val a)
  | AMean => reset a (if Nat.ltb 0 (a_count a) then vdiv (a_val a) (a_count a) else Some 0%Qc)
  | AMedian =>
      match a_values a with
      | [] => Ok (None, a)
      | _ => do m <- nth_sorted (Nat.div (length (a_values a)) 2) (a_values a);
             Ok (m, mkAgg (a_count a) (a_val a) [])
      end
  end.

(** src/CachedForwardInterpolation.cc:215-219: push the values of one cell *)
Definition push_all (k : aggkind) (undefAggr : bool) (a : agg) (vs : list value) : agg :=
  fold_left (fun a v => if undefAggr || match v with Some _ => true | None => false end
                        then push k a v else a) vs a.

(** ** Forward *)

(** append [i] to the list of output cell [o] *)
Fixpoint push_at (m : list (list N)) (o : nat) (i : N) : list (list N) :=
  match m, o with
  | [], _ => []
  | l :: m', O => (l ++ [i]) :: m'
  | l :: m', S o' => l :: push_at m' o' i
  end.

Record fwstate := mkFws { fs_map : list (list N); fs_range : range; fs_max : N }.

(** the loop nest of lines 143-144: cells (ix, iy), ix running fastest *)
Definition in_cells (inX inY : N) : list (N * N) :=
  flat_map (fun iy => map (fun ix => (N.of_nat ix, N.of_nat iy)) (seq 0 (N.to_nat inX)))
           (seq 0 (N.to_nat inY)).

(** src/CachedForwardInterpolation.cc:145-158 *)
Definition fw_step (nan : Z) (inX outX outY : N) (pts : list (option Q * option Q))
           (s : fwstate) (c : N * N) : outcome fwstate :=
  let '(ix, iy) := c in
  let i := iy * inX + ix in
  do p <- rd (nth_error pts (N.to_nat i));
  let px := round_clamp nan (outX - 1) (fst p) in
  let py := round_clamp nan (outY - 1) (snd p) in
  if negb (px =? INVALID) && negb (py =? INVALID) then
    let r := if fs_max s =? 0 then mkRange ix ix iy iy else widen (fs_range s) ix iy in
    let o := N.to_nat (py * outX + px) in
    let m := push_at (fs_map s) o i in
    let n := N.of_nat (length (nth o m [])) in
    Ok (mkFws m r (if fs_max s <? n then n else fs_max s))
  else Ok s.

Record fw := mkFw { fw_map : list (list N); fw_x0 : N; fw_y0 : N; fw_inX : N; fw_inY : N }.

(** src/CachedForwardInterpolation.cc:133-183, the constructor *)
Definition fw_construct (nan : Z) (inX inY outX outY : N) (pts : list (option Q * option Q))
  : outcome fw :=
  do s <- ofold (fw_step nan inX outX outY pts) (in_cells inX inY)
            (mkFws (repeat [] (N.to_nat (outX * outY))) (mkRange 0 0 0 0) 0);
  match shrink inX inY (fs_range s) with
  | None => Ok (mkFw (fs_map s) 0 0 inX inY)
  | Some (x0, y0, (redX, redY)) =>
      Ok (mkFw (map (map (remap inX x0 y0 redX)) (fs_map s)) x0 y0 redX redY)
  end.

(** src/CachedForwardInterpolation.cc:214-221: one output layer; the aggregator object is
    shared by all cells and levels *)
Fixpoint fw_layer (k : aggkind) (undefAggr : bool) (field : list value) (m : list (list N))
         (a : agg) : outcome (list value * agg) :=
  match m with
  | [] => Ok ([], a)
  | is :: m' =>
      do vs <- omapM (fun i => rd (nth_error field (N.to_nat i))) is;
      do va <- get_and_reset k (push_all k undefAggr a vs);
      do rest <- fw_layer k undefAggr field m' (snd va);
      Ok (fst va :: fst rest, snd rest)
  end.

(** the loop over levels, lines 212-222: the level number is not used in the reads *)
Fixpoint fw_levels (k : aggkind) (undefAggr : bool) (field : list value) (m : list (list N))
         (a : agg) (nz : nat) : outcome (list value * agg) :=
  match nz with
  | O => Ok ([], a)
  | S nz' =>
      do l <- fw_layer k undefAggr field m a;
      do rest <- fw_levels k undefAggr field m (snd l) nz';
      Ok (fst l ++ fst rest, snd rest)
  end.

(** src/CachedForwardInterpolation.cc:205-224, interpolateValues with a given aggregator state *)
Definition fw_interpolate (k : aggkind) (undefAggr : bool) (g : fw) (a : agg)
           (field : list value) : outcome (list value * agg) :=
  let inLayer := N.to_nat (fw_inX g * fw_inY g) in
  if Nat.eqb inLayer 0 then UB
  else fw_levels k undefAggr field (fw_map g) a (Nat.div (length field) inLayer).

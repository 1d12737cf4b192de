(** Reading data of a horizontally interpolated file: CDMInterpolator::getDataSlice of
    src/CDMInterpolator.cc:140-278 with getInputDataSlice and getOutputDataSlice of
    src/CachedInterpolation.cc:91-128. Logging is left out; the loops over levels run in one thread. Rounding to
    float is not modelled, as everywhere here. *)
From Coq Require Import NArith QArith Qcanon Ascii String List Bool.
From Verif Require Import Base StdMap RegridModel StringModel ConvertModel SliceModel VecModel.
Import ListNotations.
Local Open Scope string_scope.
Local Open Scope list_scope.
Local Open Scope nat_scope.

(** what a SliceBuilder (include/fimex/SliceBuilder.h) knows of one dimension: name, start, size, length *)
Record part := mkPart { p_name : string; p_start : N; p_size : N; p_max : N }.
Definition request := list part.
(** getStartAndSize, src/SliceBuilder.cc:102-107 *)
Definition asked (q : request) (n : string) : outcome (N * N) :=
  match find (fun p => String.eqb n (p_name p)) q with Some p => Ok (p_start p, p_size p) | None => Throw end.

(** a variable of the reader or one with data: type, fill value, names and lengths of the dimensions, values as
    they are stored *)
Record stored := mkStored { s_type : dtype; s_fill : value; s_dims : list (string * N); s_data : list value }.

(** CachedInterpolationInterface, include/fimex/CachedInterpolation.h: names of the axes, start of the reduced
    domain, sizes of input and output, interpolateValues *)
Record cached := mkCached { ci_x : string; ci_y : string; ci_from : option (N * N); ci_inX : N; ci_inY : N;
  ci_outX : N; ci_outY : N; ci_values : list value -> outcome (list value) }.

(** an InterpolatorProcess2d: sizes and the field *)
Definition process2d := N -> N -> list value -> list value.
(** reprojectValues of a CachedVectorReprojection *)
Definition turning := list value -> list value -> outcome (list value * list value).

(** CDMInterpolator::Impl, src/CDMInterpolator.cc:94-110, the variables with data, and the vectors of cdm_. Type and fill value of
    an interpolated variable are those of the reader, as changeCDM changes neither *)
Record interp := mkInterp { i_reader : smap stored; i_own : smap stored; i_grid : smap string; i_cached : smap cached;
  i_turn : smap turning; i_vec : vectors; i_pre : list process2d; i_post : list process2d }.

(** getDataSlice of a reader with data in memory: getDataSliceFromMemory, src/CDMReader.cc:265-274 *)
Definition fetch (s : stored) (q : request) : outcome (list value) :=
  match s_data s with
  | [] => Ok []
  | _ => slice (s_data s) (map p_max q) (map p_start q) (map p_size q)
  end.

(** getInputDataSlice, src/CachedInterpolation.cc:91-110; setStartAndSize (src/SliceBuilder.cc:109-118) throws behind
    the end of a dimension that is not unlimited; here no dimension is *)
Definition input_part (ci : cached) (q : request) (d : string * N) : outcome part :=
  let '(dn, len) := d in
  do r <- match ci_from ci with
          | Some (x0, y0) => if String.eqb dn (ci_x ci) then Ok (x0, ci_inX ci)
                             else if String.eqb dn (ci_y ci) then Ok (y0, ci_inY ci) else asked q dn
          | None => if String.eqb dn (ci_x ci) || String.eqb dn (ci_y ci) then Ok (0%N, len) else asked q dn
          end;
  if (len <? add64 (fst r) (snd r))%N then Throw else Ok (mkPart dn (fst r) (snd r) len).
Definition input (ci : cached) (s : stored) (q : request) : outcome (list value) :=
  do r <- omapM (input_part ci q) (s_dims s); fetch s r.

(** getOutputDataSlice, 112-128 *)
Definition of_axes (ci : cached) (p : part) : bool := String.eqb (p_name p) (ci_x ci) || String.eqb (p_name p) (ci_y ci).
Definition output (ci : cached) (data : list value) (q : request) : outcome (list value) :=
  slice data (map (fun p => if of_axes ci p then p_max p else p_size p) q)
    (map (fun p => if of_axes ci p then p_start p else 0%N) q) (map p_size q).

(** processArray_, src/CDMInterpolator.cc:163-188; without values in a layer the division is undefined *)
Definition layer (n k : nat) (l : list value) : list value := firstn n (skipn (k * n) l).
Definition process (ps : list process2d) (nx ny : N) (l : list value) : outcome (list value) :=
  match ps with
  | [] => Ok l
  | _ =>
      let n := N.to_nat (nx * ny) in
      if Nat.eqb n 0 then UB
      else let nz := Nat.div (length l) n in
           Ok (concat (map (fun z => fold_left (fun a p => p nx ny a) ps (layer n z l)) (seq 0 nz)) ++ skipn (nz * n) l)
  end.

(** data2InterpolationArray, 140-145, and the preprocesses, 225-226, 245-246; [size] is the number of values handed
    on, which is not that of this variable for a counterpart *)
Definition prepared (i : interp) (ci : cached) (s : stored) (size : nat) (data : list value) : outcome (list value) :=
  do f <- convert_values (s_type s) DFloat data;
  if length f <? size then UB else process (i_pre i) (ci_inX ci) (ci_inY ci) (firstn size (bad2nan (s_fill s) f)).
(** interpolationArray2Data, 147-151 *)
Definition written (s : stored) (l : list value) : outcome (list value) :=
  convert_data_type DFloat (s_type s) None 1 0 (s_fill s) 1 0 l.

(** 232-242: the other component and how the two are turned, if they are *)
Definition partner (i : interp) (v h : string) : option (bool * string * turning) :=
  match sfind v (i_vec i) with
  | Some (c, d) =>
      match d with
      | DX | DY =>
          match sfind c (i_grid i), sfind h (i_turn i) with
          | Some h', Some t => if String.eqb h h' then Some (match d with DX => true | _ => false end, c, t) else None
          | _, _ => None
          end
      | _ => None
      end
  | None => None
  end.

(** 232-259 *)
Definition turned (i : interp) (ci : cached) (v h : string) (q : request) (size : nat) (own : list value) : outcome (list value) :=
  match partner i v h with
  | None => Ok own
  | Some (is_x, c, t) =>
      match sfind c (i_reader i) with
      | None => Throw
      | Some s =>
          do d <- input ci s q;
          do a <- prepared i ci s size d;
          do b <- ci_values ci a;
          if is_x then omap fst (t own b) else omap snd (t b own)
      end
  end.

(** CDMInterpolator::getDataSlice(varName, sb), 201-264 *)
Definition read (i : interp) (v : string) (q : request) : outcome (list value) :=
  match sfind v (i_own i) with
  | Some s => fetch s q
  | None =>
      match sfind v (i_reader i) with
      | None => Throw
      | Some s =>
          match sfind v (i_grid i) with
          | None => fetch s q
          | Some h =>
              match sfind h (i_cached i) with
              | None => Throw
              | Some ci =>
                  do d <- input ci s q;
                  match d with
                  | [] => Ok []
                  | _ =>
                      do a <- prepared i ci s (length d) d;
                      do b <- ci_values ci a;
                      do t <- turned i ci v h q (length d) b;
                      do e <- process (i_post i) (ci_outX ci) (ci_outY ci) t;
                      do w <- written s e;
                      output ci w q
                  end
              end
          end
      end
  end.

(** getDataSlice(varName, unLimDimPos), 266-278, of a variable without data: the whole variable but one position
    of the unlimited dimension [u] *)
Definition record (i : interp) (v : string) (shape : list (string * N)) (u : option string) (pos : N) : outcome (list value) :=
  read i v (map (fun d => let '(n, len) := d in
    match u with
    | Some un => if String.eqb n un then mkPart n pos 1 len else mkPart n 0 len len
    | None => mkPart n 0 len len
    end) shape).

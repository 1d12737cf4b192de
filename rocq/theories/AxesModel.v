(** Axes of a coordinate system: src/coordSys/CoordinateSystem.cc, include/fimex/coordSys/CoordinateAxis.h;
    reading a byte range over HTTP: src/HttpChunkReader.cc. *)
From Coq Require Import NArith ZArith String List Bool.
From Verif Require Import Base StdMap.
Import ListNotations.

(** include/fimex/coordSys/CoordinateAxis.h:42-55 *)
Inductive axis_type : Type :=
| Undefined | GeoX | GeoY | GeoZ | Time | Lon | Lat | Pressure | Height | Depth | ReferenceTime | Realization.

Definition axis_type_eq_dec : forall a b : axis_type, {a = b} + {a <> b}.
Proof. decide equality. Defined.
Definition type_eqb (a b : axis_type) : bool := if axis_type_eq_dec a b then true else false.

Record axis : Type := mkAxis { a_name : string; a_type : axis_type; a_id : N }.
(* a_id distinguishes axis objects with the same name and type *)

(** CoordSysImpl: axes_, auxiliaryAxes_ *)
Record csys : Type := mkCs { cs_main : list axis; cs_aux : list axis }.

(** findTypeInAxes, hasTypeInAxes, CoordinateSystem.cc:84-97 *)
Definition find_type (t : axis_type) (l : list axis) : option axis := find (fun a => type_eqb t (a_type a)) l.
Definition has_type (t : axis_type) (l : list axis) : bool :=
  match find_type t l with Some _ => true | None => false end.

(** removeAxis, CoordinateSystem.cc:99-108 *)
Definition remove_axis (n : string) (l : list axis) : list axis :=
  filter (fun a => negb (String.eqb (a_name a) n)) l.

(** setAxis, CoordinateSystem.cc:305-323; the flag tells whether it threw *)
Definition set_axis (cs : csys) (a : axis) : csys * bool :=
  let v := remove_axis (a_name a) (cs_main cs) in
  if negb (type_eqb (a_type a) Undefined) && has_type (a_type a) v then (mkCs v (cs_aux cs), true)
  else (mkCs (v ++ [a]) (remove_axis (a_name a) (cs_aux cs)), false).

(** setAuxiliaryAxis, CoordinateSystem.cc:325-345 *)
Definition set_aux (cs : csys) (a : axis) : csys :=
  match find (fun b => String.eqb (a_name b) (a_name a)) (cs_main cs) with
  | Some _ => cs
  | None =>
      if negb (type_eqb (a_type a) Undefined) && has_type (a_type a) (cs_main cs) then cs
      else mkCs (cs_main cs) (remove_axis (a_name a) (cs_aux cs) ++ [a])
  end.

(** hasAxisType, findAxisOfType, CoordinateSystem.cc:255-276 *)
Definition has_axis_type (cs : csys) (t : axis_type) : bool := has_type t (cs_main cs) || has_type t (cs_aux cs).
Definition find_axis (cs : csys) (t : axis_type) : option axis :=
  match find_type t (cs_main cs) with Some a => Some a | None => find_type t (cs_aux cs) end.
Fixpoint find_axis_any (cs : csys) (l : list axis_type) : option axis :=
  match l with
  | [] => None
  | t :: l' => match find_axis cs t with Some a => Some a | None => find_axis_any cs l' end
  end.

(** CoordinateSystem.cc:278-296 *)
Definition geo_x (cs : csys) := find_axis_any cs [GeoX; Lon].
Definition geo_y (cs : csys) := find_axis_any cs [GeoY; Lat].
Definition geo_z (cs : csys) := find_axis_any cs [GeoZ; Height; Depth; Pressure].
Definition time_axis (cs : csys) := find_axis_any cs [Time].

(** getAxes, CoordinateSystem.cc:298-303 *)
Definition get_axes (cs : csys) : list axis := cs_main cs ++ cs_aux cs.

(** horizontalId, CoordinateSystem.cc:166-179 *)
Definition horizontal_id (cs : csys) : string :=
  match geo_x cs, geo_y cs with
  | Some x, Some y => (a_name x ++ "," ++ a_name y)%string
  | Some x, None => a_name x
  | None, Some y => a_name y
  | None, None => ""%string
  end.

(** a history of calls on a new coordinate system *)
Inductive cs_op : Type := SetAxis (a : axis) | SetAux (a : axis).
Definition cs_step (cs : csys) (o : cs_op) : csys :=
  match o with SetAxis a => fst (set_axis cs a) | SetAux a => set_aux cs a end.
Definition cs_run (l : list cs_op) : csys := fold_left cs_step l (mkCs [] []).

(** ** HTTP *)
Local Open Scope N_scope.

(** WriteBuffer, HttpChunkReader.cc:43-48: the memory behind the pointer, position, capacity *)
Record wbuf : Type := mkWb { wb_mem : list N; wb_pos : N; wb_cap : N }.

(** std::copy of [count] bytes to the position; outside of either block is undefined *)
Definition copy_bytes (src : list N) (count : N) (mem : list N) (pos : N) : outcome (list N) :=
  if (N.of_nat (length src) <? count) || (N.of_nat (length mem) <? pos + count) then
    (if count =? 0 then Ok mem else UB)
  else Ok (firstn (N.to_nat pos) mem ++ firstn (N.to_nat count) src ++ skipn (N.to_nat (pos + count)) mem).

(** WriteCallback, HttpChunkReader.cc:50-68: the new buffer and the return value *)
Definition write_callback (contents : list N) (size nmemb : N) (wb : wbuf) : outcome (wbuf * N) :=
  let count := mul64 size nmemb in
  if wb_cap wb <? add64 (wb_pos wb) count then Ok (wb, 0)
  else
    do m <- copy_bytes contents count (wb_mem wb) (wb_pos wb);
    Ok (mkWb m (add64 (wb_pos wb) count) (wb_cap wb), count).

(** curl_easy_perform: hands over each chunk (size is always 1); a return value other than the number
    of bytes ends the transfer with an error, which [read] turns into an exception (127-132) *)
Fixpoint perform (chunks : list (list N)) (wb : wbuf) : outcome wbuf :=
  match chunks with
  | [] => Ok wb
  | c :: r =>
      do (wb', n) <- write_callback c 1 (N.of_nat (length c)) wb;
      if n =? N.of_nat (length c) then perform r wb' else Throw
  end.

(** HttpChunkReader::read, HttpChunkReader.cc:109-133: [respond] is what the server sends for a byte
    range (first, last); the result is the memory at [buffer] *)
Definition http_read (size_ : N) (respond : N -> N -> list (list N)) (off count : N) (buffer : list N)
  : outcome (list N) :=
  if size_ <? add64 off count then Throw
  else omap wb_mem (perform (respond off (sub64 (add64 off count) 1)) (mkWb buffer 0 count)).

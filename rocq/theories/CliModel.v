(** The program [fimex]: how the options of a call become readers, library calls and files
    (src/binSrc/fimex.cc), and the names of the horizontal interpolation methods
    (src/interpolation.c:59-107).

    The options of a call are given as a map from option names to the texts given for them
    ([None]: the option was not given).  Reading the command line and the configuration files into
    that map is done by a library outside the repository and is not modelled.  A reader is the tree
    of what it was built from.  What the library does with a reader is a parameter: [okr] says
    whether building a reader from its parts passes without an exception; the exceptions of the
    calls of one processing step are taken together.  Numbers, times and truth values are read from
    texts by parameters too ([None]: an exception). *)
From Coq Require Import PeanoNat NArith ZArith QArith Ascii String List Bool Lia.
From Verif Require Import Base.
Import ListNotations.
Local Open Scope string_scope.
Local Open Scope list_scope.
Local Open Scope nat_scope.

(** the values of the options by name; po::value_set *)
Definition vset := string -> option (list string).

(** value_set::is_set *)
Definition given (vm : vset) (k : string) : bool :=
  match vm k with Some _ => true | None => false end.

(** value_set::value of an option without default; fimex.cc:257-263, 265-274 *)
Definition value (vm : vset) (k : string) : string :=
  match vm k with Some (v :: _) => v | _ => "" end.

(** value_set::value of an option with default; fimex.cc:163-164, 193-194 *)
Definition value_or (vm : vset) (d : string) (k : string) : string :=
  match vm k with Some (v :: _) => v | _ => d end.

(** value_set::values, and getOptions<string> (nothing when not given); fimex.cc:276-286 *)
Definition values (vm : vset) (k : string) : list string :=
  match vm k with Some l => l | None => [] end.

(** getOption(opt, vm, text); fimex.cc:265-274 *)
Definition opt_text (vm : vset) (k : string) : option string :=
  if given vm k then Some (value vm k) else None.

(** the interpolation methods; include/fimex/interpolation.h, here without their numbers *)
Inductive imethod :=
| NearestNeighbor | Bilinear | Bicubic | CoordNN | CoordKD
| ForwardSum | ForwardMean | ForwardMedian | ForwardMax | ForwardMin
| ForwardUndefSum | ForwardUndefMean | ForwardUndefMedian | ForwardUndefMax | ForwardUndefMin.

(** mifi_string_to_interpolation_method; [None]: MIFI_INTERPOL_UNKNOWN; interpolation.c:72-107 *)
Definition method_of (m : string) : option imethod :=
  if String.eqb "bilinear" m then Some Bilinear
  else if String.eqb "nearestneighbor" m then Some NearestNeighbor
  else if String.eqb "bicubic" m then Some Bicubic
  else if String.eqb "coord_nearestneighbor" m then Some CoordNN
  else if String.eqb "coord_kdtree" m then Some CoordKD
  else if String.eqb "forward_sum" m then Some ForwardSum
  else if String.eqb "forward_mean" m then Some ForwardMean
  else if String.eqb "forward_median" m then Some ForwardMedian
  else if String.eqb "forward_max" m then Some ForwardMax
  else if String.eqb "forward_min" m then Some ForwardMin
  else if String.eqb "forward_undef_sum" m then Some ForwardUndefSum
  else if String.eqb "forward_undef_mean" m then Some ForwardUndefMean
  else if String.eqb "forward_undef_median" m then Some ForwardUndefMedian
  else if String.eqb "forward_undef_max" m then Some ForwardUndefMax
  else if String.eqb "forward_undef_min" m then Some ForwardMin
  else None.

(** getInterpolationMethod; fimex.cc:410-422 *)
Definition method_given (vm : vset) (k : string) : imethod :=
  if given vm k
  then match method_of (value vm k) with Some m => m | None => NearestNeighbor end
  else NearestNeighbor.

(** the calls on a CDMProcessor; fimex.cc:431-476 *)
Inductive pcall :=
| DeAccumulate (v : string)
| Accumulate (v : string)
| RotateVectors (toLatLon : bool) (xs ys stdX stdY : list string)
| RotateAll (toLatLon : bool)
| RotateAngles (toLatLon : bool) (vs : list string)
| AddVerticalVelocity
| AddGeopotentialHeight.

(** the calls on a CDMExtractor; fimex.cc:489-575 *)
Inductive xcall :=
| ReduceFirst (dim : string)                       (* reduceDimension(dim, 0, 1) *)
| ReduceStartEnd (dim : string) (start stop : Z)   (* reduceDimensionStartEnd *)
| PickPositions (dim : string) (pos : list N)      (* reduceDimension(dim, set) *)
| ReduceTime (start stop : option Z)               (* [None]: earliest, latest time *)
| ReduceVertical (u : string) (start stop : Q)
| ReduceBox (south north west east : Q)
| SelectVariables (vs : list string) (aux : bool)
| RemoveVariable (v : string).

(** where to interpolate to; fimex.cc:717-789 *)
Inductive target :=
| ToProjection (dist : option Q) (proj xs ys xu yu xt yt : string)
| ToTemplate (file : string)
| ToSections (secs : list (string * list (Q * Q)))   (* name, (longitude, latitude) *)
| ToPoints (lons lats : list Q).

(** how levels are given; fimex.cc:630-650 *)
Inductive vtarget :=
| ToAxis (axis : string)
| ToTemplateVar (v : string)
| ToLevels (ls : list Q).

(** the grid of a merger; fimex.cc:837-850 *)
Inductive mgrid :=
| InnerGrid
| GivenGrid (proj xs ys xu yu xt yt : string).

(** a reader and what it was built from *)
Inductive reader :=
| Rfile (typ file config : string) (more : list string)
| Rproc (src : reader) (calls : list pcall)
| Rqual (src : reader) (auto config : string)
| Rextr (src : reader) (calls : list xcall)
| Rtime (src : reader) (spec : string)
| Rinterp (src : reader) (lat lon pre post : option string) (m : imethod) (t : target)
| Rncml (src : reader) (config : string)
| Rpress (src : reader) (ops : list string)
| Rvert (src : reader) (typ meth : string) (t : vtarget) (nomin nomax : option bool)
| Rmerge (inner outer : reader) (smooth : option string) (keep : bool) (m : imethod) (g : mgrid).

(** what can be seen from outside while the program runs *)
Inductive event :=
| PrintNcML (stage dest : string) (r : reader)
| PrintCS (stage : string) (r : reader)
| PrintSize (stage : string) (r : reader)
| Fill (file config : string) (r : reader)
| Write (typ file config : string) (r : reader)
| Usage
| Version.

(** [Go]: carries on; [Stop]: exit(1), or an exception, which main turns into status 1
    (fimex.cc:1144-1151); [More]: the fuel for files named in files ran out *)
Inductive res (A : Type) : Type := Go (a : A) | Stop | More.
Arguments Go {A} a.
Arguments Stop {A}.
Arguments More {A}.

Definition act (A : Type) : Type := list event * res A.

Definition ret {A} (a : A) : act A := ([], Go a).
Definition stop {A} : act A := ([], Stop).
Definition bnd {A B} (x : act A) (f : A -> act B) : act B :=
  match snd x with
  | Go a => (fst x ++ fst (f a), snd (f a))
  | Stop => (fst x, Stop)
  | More => (fst x, More)
  end.
Notation "'let!' x := o 'in' f" := (bnd o (fun x => f))
  (at level 200, x pattern, o at level 100, f at level 200, right associativity).

Definition ofopt {A} (o : option A) : act A :=
  match o with Some a => ret a | None => stop end.

Fixpoint mapo {A B} (f : A -> option B) (l : list A) : option (list B) :=
  match l with
  | [] => Some []
  | a :: l' => match f a, mapo f l' with
               | Some b, Some bs => Some (b :: bs)
               | _, _ => None
               end
  end.

(** static_cast from int to size_t and the order of a set<size_t>; fimex.cc:519-520 *)
Definition size_of (z : Z) : N := Z.to_N (z mod 2 ^ 64)%Z.
Fixpoint insert_set (x : N) (l : list N) : list N :=
  match l with
  | [] => [x]
  | y :: l' => if (x <? y)%N then x :: l
               else if (x =? y)%N then l
               else y :: insert_set x l'
  end.
Definition set_of (l : list Z) : list N :=
  fold_left (fun s z => insert_set (size_of z) s) l [].

(** std::accumulate(..., 0): the sum is kept in an int; fimex.cc:757 *)
Definition to_int (z : Z) : Z := ((z + 2 ^ 31) mod 2 ^ 32 - 2 ^ 31)%Z.
Definition point_sum (ns : list N) : N :=
  size_of (fold_left (fun a n => to_int (a + Z.of_N n)) ns 0%Z).

(** lonVals.at(llPos+j), latVals.at(llPos+j); fimex.cc:772-774 *)
Fixpoint points (lons lats : list Q) (pos n : nat) : option (list (Q * Q)) :=
  match n with
  | 0 => Some []
  | S n' => match nth_error lons pos, nth_error lats pos with
            | Some a, Some b => option_map (cons (a, b)) (points lons lats (S pos) n')
            | _, _ => None
            end
  end.

(** the loop over the sections; fimex.cc:766-778 *)
Fixpoint sections (names : list string) (ns : list N) (lons lats : list Q) (pos : nat)
  : option (list (string * list (Q * Q))) :=
  match names, ns with
  | nm :: names', n :: ns' =>
      match points lons lats pos (N.to_nat n) with
      | Some ps => option_map (cons (nm, ps)) (sections names' ns' lons lats (pos + N.to_nat n))
      | None => None
      end
  | _, _ => Some []
  end.

Section Program.
(** what the library does, and reading numbers and times from texts *)
Variable okr : reader -> bool.
Variable writable : string -> bool.         (* the file for NcML can be opened *)
Variable written : reader -> string -> bool. (* writing this file raises no exception *)
Variable pint : string -> option Z.
Variable pdbl : string -> option Q.
Variable pbool : string -> option bool.
Variable ptime : string -> option Z.
Variable pints : string -> option (list Z).   (* tokenizeDotted<int> *)
Variable psizes : string -> option (list N).  (* tokenizeDotted<size_t> *)
Variable pdbls : string -> option (list Q).   (* tokenizeDotted<double> *)
Variable ptoks : string -> list string.       (* tokenize(text, ",") *)
Variable pproc : string -> bool.              (* parseProcess accepts the text *)
Variable pcfg : list string -> option vset.   (* the options in configuration files *)

(** building a reader, with the exceptions of the library *)
Definition build (r : reader) : act reader := if okr r then ret r else stop.

(** printReaderStatements; fimex.cc:362-389 *)
Definition print_statements (stage : string) (vm : vset) (r : reader) : act unit :=
  let! _ := match opt_text vm (stage ++ ".printNcML") with
            | None => ret tt
            | Some d => if String.eqb d "-" then ([PrintNcML stage d r], Go tt)
                        else if writable d then ([PrintNcML stage d r], Go tt)
                        else stop
            end in
  let! _ := if given vm (stage ++ ".printCS") then ([PrintCS stage r], Go tt) else ret tt in
  if given vm (stage ++ ".printSize") then ([PrintSize stage r], Go tt) else ret tt.

(** getCDMFileReader; fimex.cc:393-408 *)
Definition file_reader (io : string) (vm : vset) : act reader :=
  let! r := build (Rfile (value vm (io ++ ".type")) (value vm (io ++ ".file"))
                         (value vm (io ++ ".config")) (values vm (io ++ ".optional"))) in
  let! _ := print_statements io vm r in
  ret r.

(** the rotations asked for; fimex.cc:440-469 *)
Definition rotations (vm : vset) : act (list pcall) :=
  if given vm "process.rotateVector.direction" then
    let d := value vm "process.rotateVector.direction" in
    let! ll := if String.eqb d "latlon" then ret true
               else if String.eqb d "grid" then ret false else stop in
    let! c := if given vm "process.rotateVector.x" && given vm "process.rotateVector.y"
              then ret [RotateVectors ll (values vm "process.rotateVector.x")
                          (values vm "process.rotateVector.y")
                          (values vm "process.rotateVector.stdNameX")
                          (values vm "process.rotateVector.stdNameY")]
              else if given vm "process.rotateVector.all" then ret [RotateAll ll]
              else if given vm "process.rotateVector.angle" then ret []
              else stop in
    ret (c ++ (if given vm "process.rotateVector.angle"
               then [RotateAngles ll (values vm "process.rotateVector.angle")] else []))
  else ret [].

(** getCDMProcessor; fimex.cc:424-477 *)
Definition processor (vm : vset) (src : reader) : act reader :=
  if negb (given vm "process.accumulateVariable" || given vm "process.deaccumulateVariable"
           || given vm "process.rotateVector.direction" || given vm "process.addVerticalVelocity"
           || given vm "process.addGeopotentialHeight")
  then ret src
  else
    let! rot := rotations vm in
    build (Rproc src
      (map DeAccumulate (values vm "process.deaccumulateVariable")
       ++ map Accumulate (values vm "process.accumulateVariable")
       ++ rot
       ++ (if given vm "process.addVerticalVelocity" then [AddVerticalVelocity] else [])
       ++ (if given vm "process.addGeopotentialHeight" then [AddGeopotentialHeight] else []))).

(** the loop over the dimensions to reduce; fimex.cc:501-508 *)
Fixpoint reduce_dims (names : list string) (ss es : list Z) : option (list xcall) :=
  match names, ss, es with
  | [], _, _ => Some []
  | d :: names', s :: ss', e :: es' =>
      option_map (cons (if ((s =? 0) && (e =? 0))%Z then ReduceFirst d else ReduceStartEnd d s e))
        (reduce_dims names' ss' es')
  | _, _, _ => None
  end.

(** reduceDimension.*; fimex.cc:489-509 *)
Definition x_reduce (vm : vset) : option (list xcall) :=
  if given vm "extract.reduceDimension.name" then
    match mapo pint (values vm "extract.reduceDimension.start"),
          mapo pint (values vm "extract.reduceDimension.end") with
    | Some ss, Some es => reduce_dims (values vm "extract.reduceDimension.name") ss es
    | _, _ => None
    end
  else Some [].

(** the loop over the dimensions to pick from; fimex.cc:518-522 *)
Fixpoint pick_dims (dims lists : list string) : option (list xcall) :=
  match dims, lists with
  | [], _ => Some []
  | d :: dims', l :: lists' =>
      match pints l with
      | Some ps => option_map (cons (PickPositions d (set_of ps))) (pick_dims dims' lists')
      | None => None
      end
  | _, _ => None
  end.

(** pickDimension.*; fimex.cc:510-523 *)
Definition x_pick (vm : vset) : option (list xcall) :=
  if given vm "extract.pickDimension.name"
  then pick_dims (values vm "extract.pickDimension.name") (values vm "extract.pickDimension.list")
  else Some [].

(** one end of the time span; fimex.cc:525-541 *)
Definition time_end (vm : vset) (k : string) : option (option Z) :=
  if given vm k then option_map Some (ptime (value vm k)) else Some None.

(** reduceTime.*; fimex.cc:524-543 *)
Definition x_time (vm : vset) : option (list xcall) :=
  if given vm "extract.reduceTime.start" || given vm "extract.reduceTime.end" then
    match time_end vm "extract.reduceTime.start", time_end vm "extract.reduceTime.end" with
    | Some s, Some e => Some [ReduceTime s e]
    | _, _ => None
    end
  else Some [].

(** reduceVerticalAxis.*; fimex.cc:544-553 *)
Definition x_vertical (vm : vset) : option (list xcall) :=
  if given vm "extract.reduceVerticalAxis.unit" then
    if given vm "extract.reduceVerticalAxis.start" && given vm "extract.reduceVerticalAxis.end" then
      match pdbl (value vm "extract.reduceVerticalAxis.start"),
            pdbl (value vm "extract.reduceVerticalAxis.end") with
      | Some s, Some e => Some [ReduceVertical (value vm "extract.reduceVerticalAxis.unit") s e]
      | _, _ => None
      end
    else None
  else Some [].

(** one side of the box; fimex.cc:559-564 *)
Definition box_side (vm : vset) (k : string) : option Q :=
  if given vm k then pdbl (value vm k) else None.

(** reduceToBoundingBox.*; fimex.cc:554-568 *)
Definition x_box (vm : vset) : option (list xcall) :=
  if given vm "extract.reduceToBoundingBox.south" || given vm "extract.reduceToBoundingBox.north"
     || given vm "extract.reduceToBoundingBox.west" || given vm "extract.reduceToBoundingBox.east"
  then
    match box_side vm "extract.reduceToBoundingBox.south",
          box_side vm "extract.reduceToBoundingBox.north",
          box_side vm "extract.reduceToBoundingBox.west",
          box_side vm "extract.reduceToBoundingBox.east" with
    | Some s, Some n, Some w, Some e => Some [ReduceBox s n w e]
    | _, _, _, _ => None
    end
  else Some [].

(** selectVariables and removeVariable; fimex.cc:569-575.  Simplified: the set of the selected names
    is kept as the list given *)
Definition x_variables (vm : vset) : list xcall :=
  (if given vm "extract.selectVariables"
   then [SelectVariables (values vm "extract.selectVariables")
           (negb (given vm "extract.selectVariables.noAuxiliary"))]
   else [])
  ++ map RemoveVariable (values vm "extract.removeVariable").

(** getCDMExtractor; fimex.cc:479-579.  The condition names reduceTime.start twice (line 482). *)
Definition extractor (vm : vset) (src : reader) : act reader :=
  if negb (given vm "extract.reduceDimension.name" || given vm "extract.pickDimension.name"
           || given vm "extract.removeVariable" || given vm "extract.selectVariables"
           || given vm "extract.reduceTime.start" || given vm "extract.reduceTime.start"
           || given vm "extract.reduceVerticalAxis.unit"
           || given vm "extract.reduceToBoundingBox.south" || given vm "extract.reduceToBoundingBox.north"
           || given vm "extract.reduceToBoundingBox.west" || given vm "extract.reduceToBoundingBox.east")
  then ret src
  else
    let! a := ofopt (x_reduce vm) in
    let! b := ofopt (x_pick vm) in
    let! c := ofopt (x_time vm) in
    let! d := ofopt (x_vertical vm) in
    let! e := ofopt (x_box vm) in
    let! r := build (Rextr src (a ++ b ++ c ++ d ++ e ++ x_variables vm)) in
    let! _ := print_statements "extract" vm r in
    ret r.

(** getCDMQualityExtractor: the text is looked up as autoConfigString, the option is called
    autoConfString; fimex.cc:581-594, 124, 219 *)
Definition quality (version : string) (vm : vset) (src : reader) : act reader :=
  let io := ("qualityExtract" ++ version)%string in
  let auto := value vm (io ++ ".autoConfigString") in
  let config := value vm (io ++ ".config") in
  let! r := if negb (String.eqb auto "") || negb (String.eqb config "")
            then build (Rqual src auto config) else ret src in
  let! _ := print_statements io vm r in
  ret r.

(** getCDMTimeInterpolator; fimex.cc:596-608 *)
Definition time_interpolator (vm : vset) (src : reader) : act reader :=
  match opt_text vm "timeInterpolate.timeSpec" with
  | None => ret src
  | Some spec =>
      let! r := build (Rtime src spec) in
      let! _ := print_statements "timeInterpolate" vm r in
      ret r
  end.

(** a truth value that may be given; fimex.cc:651-658 *)
Definition opt_bool (vm : vset) (k : string) : act (option bool) :=
  if given vm k then let! b := ofopt (pbool (value vm k)) in ret (Some b) else ret None.

(** the levels; fimex.cc:630-650 *)
Definition levels (vm : vset) : act vtarget :=
  match opt_text vm "verticalInterpolate.toAxis" with
  | Some a => ret (ToAxis a)
  | None =>
      match opt_text vm "verticalInterpolate.templateVar" with
      | Some v => ret (ToTemplateVar v)
      | None =>
          match opt_text vm "verticalInterpolate.level1" with
          | Some t => let! l := ofopt (pdbls t) in ret (ToLevels l)
          | None => stop
          end
      end
  end.

(** getCDMVerticalInterpolator; fimex.cc:610-661 *)
Definition vertical (vm : vset) (src : reader) : act reader :=
  let config := value vm "verticalInterpolate.config" in
  let! r1 := if String.eqb config "" then ret src else build (Rncml src config) in
  let! r2 := if given vm "verticalInterpolate.dataConversion"
             then build (Rpress r1 (values vm "verticalInterpolate.dataConversion")) else ret r1 in
  match opt_text vm "verticalInterpolate.type", opt_text vm "verticalInterpolate.method" with
  | Some typ, Some meth =>
      let! t := levels vm in
      let! mn := opt_bool vm "verticalInterpolate.ignoreValidityMin" in
      let! mx := opt_bool vm "verticalInterpolate.ignoreValidityMax" in
      let! r := build (Rvert r2 typ meth t mn mx) in
      let! _ := print_statements "verticalInterpolate" vm r in
      ret r
  | _, _ => ret r2
  end.

(** a pre- or postprocess that may be given; fimex.cc:703-708 *)
Definition opt_proc (vm : vset) (k : string) : act (option string) :=
  match opt_text vm k with
  | None => ret None
  | Some t => if pproc t then ret (Some t) else stop
  end.

(** cross sections; fimex.cc:736-778 *)
Definition cross_sections (vm : vset) : act target :=
  if given vm "interpolate.vcrossNoPoints" && given vm "interpolate.longitudeValues"
     && given vm "interpolate.latitudeValues" then
    let names := ptoks (value vm "interpolate.vcrossNames") in
    let! ns := ofopt (psizes (value vm "interpolate.vcrossNoPoints")) in
    let! lats := ofopt (pdbls (value vm "interpolate.latitudeValues")) in
    let! lons := ofopt (pdbls (value vm "interpolate.longitudeValues")) in
    if negb (length names =? length ns) then stop
    else if negb (point_sum ns =? N.of_nat (length lats))%N then stop
    else if negb (length lats =? length lons) then stop
    else let! s := ofopt (sections names ns lons lats 0) in ret (ToSections s)
  else stop.

(** the new projection; fimex.cc:717-732 *)
Definition projection (vm : vset) (proj : string) : act target :=
  if given vm "interpolate.xAxisUnit" && given vm "interpolate.yAxisUnit"
     && given vm "interpolate.xAxisValues" && given vm "interpolate.yAxisValues" then
    let! d := if given vm "interpolate.distanceOfInterest"
              then let! q := ofopt (pdbl (value vm "interpolate.distanceOfInterest")) in ret (Some q)
              else ret None in
    ret (ToProjection d proj (value vm "interpolate.xAxisValues") (value vm "interpolate.yAxisValues")
           (value vm "interpolate.xAxisUnit") (value vm "interpolate.yAxisUnit")
           (value_or vm "double" "interpolate.xAxisType") (value_or vm "double" "interpolate.yAxisType"))
  else stop.

(** the target of the interpolation, if there is one; fimex.cc:717-792 *)
Definition itarget (vm : vset) : option (act target) :=
  match opt_text vm "interpolate.projString" with
  | Some proj => Some (projection vm proj)
  | None =>
      if given vm "interpolate.template" then Some (ret (ToTemplate (value vm "interpolate.template")))
      else if given vm "interpolate.vcrossNames" then Some (cross_sections vm)
      else if given vm "interpolate.latitudeValues" then
        Some (if given vm "interpolate.longitudeValues" then
                let! lats := ofopt (pdbls (value vm "interpolate.latitudeValues")) in
                let! lons := ofopt (pdbls (value vm "interpolate.longitudeValues")) in
                ret (ToPoints lons lats)
              else stop)
      else None
  end.

(** getCDMInterpolator and createCDMInterpolator; fimex.cc:692-796 *)
Definition interpolator (vm : vset) (src : reader) : act reader :=
  match itarget vm with
  | None => ret src
  | Some a =>
      let! t := a in
      let! pre := opt_proc vm "interpolate.preprocess" in
      let! post := opt_proc vm "interpolate.postprocess" in
      let! r := build (Rinterp src (opt_text vm "interpolate.latitudeName")
                         (opt_text vm "interpolate.longitudeName") pre post
                         (method_given vm "interpolate.method") t) in
      let! _ := print_statements "interpolate" vm r in
      ret r
  end.

(** getNcmlCDMReader; fimex.cc:798-806 *)
Definition ncml (vm : vset) (src : reader) : act reader :=
  let config := value vm "ncml.config" in
  if String.eqb config "" then ret src
  else let! r := build (Rncml src config) in
       let! _ := print_statements "ncml" vm r in
       ret r.

(** the grid of the merger; fimex.cc:837-850 *)
Definition merge_grid (vm : vset) : act mgrid :=
  if given vm "merge.projString" then
    if given vm "merge.xAxisUnit" && given vm "merge.yAxisUnit"
       && given vm "merge.xAxisValues" && given vm "merge.yAxisValues" then
      ret (GivenGrid (value vm "merge.projString")
             (value vm "merge.xAxisValues") (value vm "merge.yAxisValues")
             (value vm "merge.xAxisUnit") (value vm "merge.yAxisUnit")
             (value_or vm "double" "merge.xAxisType") (value_or vm "double" "merge.yAxisType"))
    else stop
  else ret InnerGrid.

(** getCDMMerger; [tasks]: applyFimexStreamTasks for the inner file; fimex.cc:808-854 *)
Definition merger (tasks : vset -> reader -> act reader) (vm : vset) (src : reader) : act reader :=
  if negb (given vm "merge.inner.file" || given vm "merge.inner.type" || given vm "merge.inner.config"
           || given vm "merge.smoothing" || given vm "merge.method")
  then ret src
  else
    let! i0 := file_reader "merge.inner" vm in
    let! i1 := if given vm "merge.inner.cfg"
               then let! mvm := ofopt (pcfg (values vm "merge.inner.cfg")) in tasks mvm i0
               else ret i0 in
    let! g := merge_grid vm in
    let! r := build (Rmerge i1 src (opt_text vm "merge.smoothing")
                       (given vm "merge.keepOuterVariables") (method_given vm "merge.method") g) in
    let! _ := print_statements "merge" vm r in
    ret r.

(** applyFimexStreamTasks; [n]: how deep configuration files for inner files may name further
    ones, the code has no limit; fimex.cc:856-868 *)
Fixpoint tasks (n : nat) (vm : vset) (r0 : reader) : act reader :=
  match n with
  | 0 => ([], More)
  | S n' =>
      let! r1 := processor vm r0 in
      let! r2 := quality "" vm r1 in
      let! r3 := extractor vm r2 in
      let! r4 := time_interpolator vm r3 in
      let! r5 := interpolator vm r4 in
      let! r6 := vertical vm r5 in
      let! r7 := merger (tasks n') vm r6 in
      let! r8 := quality "2" vm r7 in
      ncml vm r8
  end.

(** fillWriteCDM; fimex.cc:870-881 *)
Definition fill_write (vm : vset) (r : reader) : act unit :=
  match opt_text vm "output.fillFile" with
  | None => ret tt
  | Some f => if written r f then ([Fill f (value vm "output.config") r], Go tt) else stop
  end.

(** writeCDM; fimex.cc:883-899 *)
Definition write (vm : vset) (r : reader) : act unit :=
  let! _ := print_statements "output" vm r in
  match opt_text vm "output.file" with
  | None => ret tt
  | Some f => if written r f
              then ([Write (value vm "output.type") f (value vm "output.config") r], Go tt)
              else stop
  end.

(** run, after the options and the positional arguments were read; [alone]: argc == 1;
    fimex.cc:1043-1050, 1098-1103 *)
Definition program (n : nat) (alone : bool) (vm : vset) : act unit :=
  if alone || given vm "help" then ([Usage], Go tt)
  else if given vm "version" then ([Version], Go tt)
  else
    let! r0 := file_reader "input" vm in
    let! r := tasks n vm r0 in
    let! _ := fill_write vm r in
    write vm r.

End Program.

(** the status the program ends with; [None]: it does not end; fimex.cc:1126-1154 *)
Definition status {A} (x : act A) : option nat :=
  match snd x with Go _ => Some 0 | Stop => Some 1 | More => None end.

(** Vectors found by their standard names: enhanceVectorProperties of src/coordSys/CF1_xCoordSysBuilder.cc,
    src/coordSys/WRFCoordSysBuilder.cc and src/coordSys/CoordinateSystem.cc. *)
From Coq Require Import NArith Ascii String List Bool.
From Verif Require Import Base StdMap StringModel FilesModel ConvertModel CdmModel NmlModel CfcsModel.
Import ListNotations.
Local Open Scope string_scope.
Local Open Scope list_scope.
Local Open Scope nat_scope.

(** CDMVariable::SpatialVectorDirection, include/fimex/CDMVariable.h *)
Inductive dir := DX | DY | DLon | DLat | DNone.
(** counterpart and direction of the variables, src/CDMVariable.cc:65-69; a variable that is not in the map
    has none *)
Definition vectors := smap (string * dir).
(** isSpatialVector, include/fimex/CDMVariable.h:70 *)
Definition is_vector (s : vectors) (n : string) : bool :=
  match sfind n s with Some (k, _) => negb (isempty k) | None => false end.

(** one call of enhanceVectors *)
Record row := mkRow { r_x : string; r_y : string; r_xdir : dir; r_ydir : dir }.

Section Vec.
Variable c : cdm.

(** findVariables("standard_name", regex_escape(n) + ".*"): the names begin with [n]; a dot matches no
    line end *)
Definition named (n : string) (s : string) : bool :=
  begins (s_ n) (s_ s) && forallb (fun x => negb (is_newline x)) (skipn (length (s_ n)) (s_ s)).
Definition candidates (n : string) : list string := find_variables c [("standard_name", named n)] [].
Definition shape_of (n : string) : list string := match find_var n (vars c) with Some v => v_shape v | None => [] end.
Definition same_shape (a b : string) : bool := if list_eq_dec string_dec (shape_of a) (shape_of b) then true else false.
(** src/coordSys/CF1_xCoordSysBuilder.cc:555-578; every name found has a variable *)
Definition pair_step (r : row) (ys : list string) (s : vectors) (x : string) : vectors :=
  if is_vector s x then s
  else match find (fun y => negb (is_vector s y) && same_shape x y) ys with
       | Some y => sput y (x, r_ydir r) (sput x (y, r_xdir r) s)
       | None => s
       end.
Definition enhance (s : vectors) (r : row) : vectors :=
  fold_left (pair_step r (candidates (r_y r))) (candidates (r_x r)) s.
(** the calls of enhanceVectorProperties, 580-662 *)
Definition rows : list row := [
  mkRow "x_wind"
        "y_wind" DX DY;
  mkRow "grid_eastward_wind"
        "grid_northward_wind" DX DY;
  mkRow "sea_water_x_velocity"
        "sea_water_y_velocity" DX DY;
  mkRow "x_sea_water_velocity"
        "y_sea_water_velocity" DX DY;
  mkRow "barotropic_sea_water_x_velocity"
        "barotropic_sea_water_y_velocity" DX DY;
  mkRow "bolus_sea_water_x_velocity"
        "bolus_sea_water_y_velocity" DX DY;
  mkRow "surface_geostrophic_sea_water_x_velocity"
        "surface_geostrophic_sea_water_y_velocity" DX DY;
  mkRow "barotropic_sea_water_x_velocity"
        "barotropic_sea_water_y_velocity" DX DY;
  mkRow "sea_ice_x_velocity"
        "sea_ice_y_velocity" DX DY;
  mkRow "sea_ice_x_transport"
        "sea_ice_y_transport" DX DY;
  mkRow "sea_ice_x_displacement"
        "sea_ice_y_displacement" DX DY;
  mkRow "sea_surface_wave_stokes_drift_x_velocity"
        "sea_surface_wave_stokes_drift_y_velocity" DX DY;
  mkRow "land_ice_x_velocity"
        "land_ice_y_velocity" DX DY;
  mkRow "land_ice_basal_x_velocity"
        "land_ice_basal_y_velocity" DX DY;
  mkRow "land_ice_vertical_mean_x_velocity"
        "land_ice_vertical_mean_y_velocity" DX DY;
  mkRow "ocean_heat_x_transport"
        "ocean_heat_y_transport" DX DY;
  mkRow "ocean_salt_x_transport"
        "ocean_salt_y_transport" DX DY;
  mkRow "ocean_volume_x_transport"
        "ocean_volume_y_transport" DX DY;
  mkRow "atmosphere_eastward_stress_due_to_gravity_wave_drag"
        "atmosphere_northward_stress_due_to_gravity_wave_drag" DLon DLat;
  mkRow "baroclinic_eastward_sea_water_velocity"
        "baroclinic_northward_sea_water_velocity" DLon DLat;
  mkRow "barotropic_eastward_sea_water_velocity"
        "barotropic_northward_sea_water_velocity" DLon DLat;
  mkRow "bolus_eastward_sea_water_velocity"
        "bolus_northward_sea_water_velocity" DLon DLat;
  mkRow "downward_eastward_momentum_flux_in_air"
        "downward_northward_momentum_flux_in_air" DLon DLat;
  mkRow "downward_eastward_momentum_flux_in_air_due_to_diffusion"
        "downward_northward_momentum_flux_in_air_due_to_diffusion" DLon DLat;
  mkRow "downward_eastward_stress_at_sea_ice_base"
        "downward_northward_stress_at_sea_ice_base" DLon DLat;
  mkRow "eastward_atmosphere_dry_static_energy_transport_across_unit_distance"
        "northward_atmosphere_dry_static_energy_transport_across_unit_distance" DLon DLat;
  mkRow "eastward_atmosphere_water_transport_across_unit_distance"
        "northward_atmosphere_water_transport_across_unit_distance" DLon DLat;
  mkRow "eastward_atmosphere_water_vapor_transport_across_unit_distance"
        "northward_atmosphere_water_vapor_transport_across_unit_distance" DLon DLat;
  mkRow "eastward_derivative_of_northward_sea_ice_velocity"
        "northward_derivative_of_northward_sea_ice_velocity" DLon DLat;
  mkRow "eastward_mass_flux_of_air"
        "northward_mass_flux_of_air" DLon DLat;
  mkRow "eastward_momentum_flux_correction"
        "northward_momentum_flux_correction" DLon DLat;
  mkRow "eastward_sea_ice_displacement"
        "northward_sea_ice_displacement" DLon DLat;
  mkRow "eastward_sea_ice_velocity"
        "northward_sea_ice_velocity" DLon DLat;
  mkRow "eastward_sea_water_velocity"
        "northward_sea_water_velocity" DLon DLat;
  mkRow "eastward_sea_water_velocity_assuming_no_tide"
        "northward_sea_water_velocity_assuming_no_tide" DLon DLat;
  mkRow "eastward_transformed_eulerian_mean_air_velocity"
        "northward_transformed_eulerian_mean_air_velocity" DLon DLat;
  mkRow "eastward_transformed_eulerian_mean_velocity"
        "northward_transformed_eulerian_mean_velocity" DLon DLat;
  mkRow "eastward_water_vapor_flux_in_air"
        "northward_water_vapor_flux_in_air" DLon DLat;
  mkRow "eastward_water_vapor_flux"
        "northward_water_vapor_flux" DLon DLat;
  mkRow "eastward_water_vapor_transport_across_unit_distance_in_atmosphere_layer"
        "northward_water_vapor_transport_across_unit_distance_in_atmosphere_layer" DLon DLat;
  mkRow "eastward_wind"
        "northward_wind" DLon DLat;
  mkRow "eastward_wind_shear"
        "northward_wind_shear" DLon DLat;
  mkRow "geostrophic_eastward_wind"
        "geostrophic_northward_wind" DLon DLat;
  mkRow "product_of_eastward_sea_water_velocity_and_salinity"
        "product_of_northward_sea_water_velocity_and_salinity" DLon DLat;
  mkRow "product_of_eastward_sea_water_velocity_and_temperature"
        "product_of_northward_sea_water_velocity_and_temperature" DLon DLat;
  mkRow "product_of_eastward_wind_and_air_temperature"
        "product_of_northward_wind_and_air_temperature" DLon DLat;
  mkRow "product_of_eastward_wind_and_geopotential_height"
        "product_of_northward_wind_and_geopotential_height" DLon DLat;
  mkRow "product_of_eastward_wind_and_omega"
        "product_of_northward_wind_and_omega" DLon DLat;
  mkRow "product_of_eastward_wind_and_specific_humidity"
        "product_of_northward_wind_and_specific_humidity" DLon DLat;
  mkRow "product_of_eastward_wind_and_upward_air_velocity"
        "product_of_northward_wind_and_upward_air_velocity" DLon DLat;
  mkRow "surface_downward_eastward_stress"
        "surface_downward_northward_stress" DLon DLat;
  mkRow "surface_eastward_sea_water_velocity"
        "surface_northward_sea_water_velocity" DLon DLat;
  mkRow "surface_geostrophic_eastward_sea_water_velocity"
        "surface_geostrophic_northward_sea_water_velocity" DLon DLat;
  mkRow "surface_eastward_geostrophic_sea_water_velocity"
        "surface_northward_geostrophic_sea_water_velocity" DLon DLat;
  mkRow "surface_geostrophic_eastward_sea_water_velocity_assuming_sea_level_for_geoid"
        "surface_geostrophic_northward_sea_water_velocity_assuming_sea_level_for_geoid" DLon DLat;
  mkRow "surface_eastward_geostrophic_sea_water_velocity_assuming_sea_level_for_geoid"
        "surface_northward_geostrophic_sea_water_velocity_assuming_sea_level_for_geoid" DLon DLat;
  mkRow "tendency_of_eastward_wind"
        "tendency_of_northward_wind" DLon DLat;
  mkRow "tendency_of_eastward_wind_due_to_advection"
        "tendency_of_northward_wind_due_to_advection" DLon DLat;
  mkRow "tendency_of_eastward_wind_due_to_convection"
        "tendency_of_northward_wind_due_to_convection" DLon DLat;
  mkRow "tendency_of_eastward_wind_due_to_diffusion"
        "tendency_of_northward_wind_due_to_diffusion" DLon DLat;
  mkRow "tendency_of_eastward_wind_due_to_eliassen_palm_flux_divergence"
        "tendency_of_northward_wind_due_to_eliassen_palm_flux_divergence" DLon DLat;
  mkRow "tendency_of_eastward_wind_due_to_gravity_wave_drag"
        "tendency_of_northward_wind_due_to_gravity_wave_drag" DLon DLat;
  mkRow "tendency_of_eastward_wind_due_to_nonorographic_gravity_wave_drag"
        "tendency_of_northward_wind_due_to_nonorographic_gravity_wave_drag" DLon DLat;
  mkRow "tendency_of_eastward_wind_due_to_numerical_artefacts"
        "tendency_of_northward_wind_due_to_numerical_artefacts" DLon DLat;
  mkRow "tendency_of_eastward_wind_due_to_orographic_gravity_wave_drag"
        "tendency_of_northward_wind_due_to_orographic_gravity_wave_drag" DLon DLat;
  mkRow "upward_eastward_momentum_flux_in_air_due_to_nonorographic_eastward_gravity_waves"
        "upward_northward_momentum_flux_in_air_due_to_nonorographic_northward_gravity_waves" DLon DLat;
  mkRow "upward_flux_of_eastward_momentum_due_to_nonorographic_eastward_gravity_waves"
        "upward_flux_of_northward_momentum_due_to_nonorographic_northward_gravity_waves" DLon DLat;
  mkRow "upward_eastward_momentum_flux_in_air_due_to_nonorographic_westward_gravity_waves"
        "upward_northward_momentum_flux_in_air_due_to_nonorographic_westward_gravity_waves" DLon DLat;
  mkRow "upward_flux_of_eastward_momentum_due_to_nonorographic_westward_gravity_waves"
        "upward_flux_of_northward_momentum_due_to_nonorographic_westward_gravity_waves" DLon DLat;
  mkRow "upward_eastward_momentum_flux_in_air_due_to_orographic_gravity_waves"
        "upward_northward_momentum_flux_in_air_due_to_orographic_gravity_waves" DLon DLat;
  mkRow "upward_flux_of_eastward_momentum_due_to_orographic_gravity_waves"
        "upward_flux_of_northward_momentum_due_to_orographic_gravity_waves" DLon DLat;
  mkRow "upward_eastward_stress_at_sea_ice_base"
        "upward_northward_stress_at_sea_ice_base" DLon DLat].
Definition cf_vectors (s : vectors) : vectors := fold_left enhance rows s.

(** src/coordSys/WRFCoordSysBuilder.cc:75-94 *)
Definition wrf_step (s : vectors) (p : string * string) : vectors :=
  if has_var c (fst p) && has_var c (snd p) && negb (is_vector s (fst p)) && negb (is_vector s (snd p))
  then sput (snd p) (fst p, DY) (sput (fst p) (snd p, DX) s)
  else s.
Definition wrf_vectors (s : vectors) : vectors := fold_left wrf_step [("U", "V"); ("UAH", "VAH")] s.

(** isMine, src/coordSys/CF1_xCoordSysBuilder.cc:82-99 and src/coordSys/WRFCoordSysBuilder.cc:63-73 *)
Definition conventions : string :=
  match att c global_ns "Conventions" with
  | Some t => t
  | None => match att c global_ns "conventions" with Some t => t | None => "" end
  end.
Definition cf_mine : bool := holds "CF-1." conventions || holds "cf-1." conventions || holds "COARDS" conventions.
Definition wrf_mine : bool := has_dim c "south_north" && match get_attr c global_ns "MAP_PROJ" with Some _ => true | None => false end.
(** enhanceVectorProperties, src/coordSys/CoordinateSystem.cc:113-120, 509-529 *)
Definition enhance_vectors (s : vectors) : vectors :=
  let s1 := if cf_mine then cf_vectors s else s in
  let s2 := if wrf_mine then wrf_vectors s1 else s1 in
  if cf_mine || wrf_mine then s2 else cf_vectors s2.
(** listCoordinateSystems, src/coordSys/CoordinateSystem.cc:459-507, of the systems of the two builders *)
Definition all_systems {A : Type} (cf wrf : outcome (list A)) : outcome (list A) :=
  do a <- (if cf_mine then cf else Ok []);
  do b <- (if wrf_mine then wrf else Ok []);
  match a ++ b with [] => cf | l => Ok l end.
End Vec.

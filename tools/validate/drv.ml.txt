open Model
let o (x:float) : __ = Obj.magic x
let f (x:__) : float = Obj.magic x
let tbl = Hashtbl.create 10000
let lit m e = try Hashtbl.find tbl (m,e) with Not_found ->
  let v = float_of_string (Printf.sprintf "%de%d" m e) in Hashtbl.add tbl (m,e) v; v
let a : arith = {
  lit=(fun m e -> o (lit m e)); of_int=(fun z -> o (float_of_int z));
  add0=(fun x y -> o (f x +. f y)); sub0=(fun x y -> o (f x -. f y));
  mul0=(fun x y -> o (f x *. f y)); div0=(fun x y -> o (f x /. f y));
  rem=(fun x y -> o (Float.rem (f x) (f y))); neg=(fun x -> o (-. (f x))); nabs=(fun x -> o (abs_float (f x)));
  nsqrt=(fun x -> o (sqrt (f x))); nround=(fun x -> o (Float.round (f x))); ntrunc=(fun x -> o (Float.trunc (f x)));
  ltb0=(fun x y -> f x < f y); leb0=(fun x y -> f x <= f y);
  to_i32=(fun x -> int_of_float (f x)); to_u32=(fun x -> int_of_float (f x));
  nsin=(fun x -> o (sin (f x))); ncos=(fun x -> o (cos (f x))); nacos=(fun x -> o (acos (f x)));
  natan=(fun x -> o (atan (f x))); natan2=(fun y x -> o (atan2 (f y) (f x)));
  c_pi = o 3.14159265358979323846; c_two_pi = o 6.283185307179586476925287; c_as2r = o 4.848136811095359935899141e-6 }
let rows name = let ic = open_in (name ^ ".txt") in
  let r = ref [] in (try while true do
    let l = input_line ic in
    r := Array.of_list (List.map float_of_string (List.filter (fun s -> s<>"") (String.split_on_char ' ' l))) :: !r done with End_of_file -> ()); close_in ic; List.rev !r
let get = function Val x -> x | Panic -> failwith "panic"
let vl v = [f v.v0; f v.v1; f v.v2]
let ml m = vl m.r0 @ vl m.r1 @ vl m.r2
let mat r i = let v k = {v0=o r.(i+3*k); v1=o r.(i+3*k+1); v2=o r.(i+3*k+2)} in {r0=v 0; r1=v 1; r2=v 2}
let tt x y = {tt_1=o x; tt_2=o y}
let ut x y = {ut1_1=o x; ut1_2=o y}
let check name skip calc =
  let e = ref 0.0 and n = ref 0 in
  List.iter (fun r -> incr n; List.iteri (fun i v -> let d = abs_float (v -. r.(skip+i)) in if not (d <= !e) then e := d) (calc r)) (rows name);
  Printf.printf "%-12s %d rows, max error %.3e = %.2f EPSILON\n%!" name !n !e (!e /. epsilon_float)
let () =
  check "POM00_DATA" 3 (fun r -> ml (get (polar_motion_matrix a (o r.(0)) (o r.(1)) (o r.(2)))));
  check "NUT00B_DATA" 2 (fun r -> let (x,y) = get (nutation a (tt r.(0) r.(1))) in [f x; f y]);
  check "NUMAT_DATA" 3 (fun r -> ml (get (nutation_matrix a (o r.(0)) (o r.(1)) (o r.(2)))));
  check "BP00_DATA" 2 (fun r -> let ((x,y),z) = get (bias_and_precession a (tt r.(0) r.(1))) in ml x @ ml y @ ml z);
  check "ERA00_DATA" 2 (fun r -> [f (rotation_angle a (ut r.(0) r.(1)))]);
  check "PR00_DATA" 2 (fun r -> let (x,y) = precession_rate a (tt r.(0) r.(1)) in [f x; f y]);
  check "PNM00B_DATA" 2 (fun r -> ml (get (precession_nutation a (tt r.(0) r.(1)))));
  check "C2I00B_DATA" 2 (fun r -> ml (get (celestial_to_intermediate a (tt r.(0) r.(1)))));
  check "C2TCIO_DATA" 19 (fun r -> ml (get (c2t_from_cio a (mat r 0) (o r.(9)) (mat r 10))));
  check "S00_DATA" 4 (fun r -> [f (get (cio a (tt r.(0) r.(1)) (o r.(2)) (o r.(3))))]);
  check "C2T00B_DATA" 8 (fun r -> let t = tt r.(0) r.(1) in
     let d = tdb_from_tt a t (o r.(2)) in let u = ut1_from_tt a t (o r.(5)) in
     if f d.tdb_1 <> r.(3) || f d.tdb_2 <> r.(4) || f u.ut1_1 <> r.(6) || f u.ut1_2 <> r.(7) then failwith "tdb/ut1";
     ml (get (celestial_to_terrestrial a t u (o 0.) (o 0.))))
(* values published with SOFA (t_sofa_c) for routines without data in the repository *)
let one name l = List.iter (fun (x,y,tol) -> Printf.printf "%-12s %.17g vs %.17g %s\n" name x y (if abs_float (x-.y) <= tol then "ok" else "DIFFERENT")) l
let () =
  let e = get (earth_pos_vel a {tdb_1=o 2400000.5; tdb_2=o 53411.52501161}) in
  let c v l tol = List.map2 (fun x y -> (x,y,tol)) (vl v) l in
  one "epv00 pvh p" (c e.heliocentric.pv_p [-0.7757238809297706813; 0.5598052241363340596; 0.2426998466481686993] 1e-14);
  one "epv00 pvh v" (c e.heliocentric.pv_v [-0.1091891824147313846e-1; -0.1247187268440845008e-1; -0.5407569418065039061e-2] 1e-15);
  one "epv00 pvb p" (c e.barycentric.pv_p [-0.7714104440491111971; 0.5598412061824171323; 0.2425996277722452400] 1e-14);
  one "epv00 pvb v" (c e.barycentric.pv_v [-0.1091874268116823295e-1; -0.1246525461732861538e-1; -0.5404773180966231279e-2] 1e-15);
  (match conv_new a {el_a=o 6378136.0; el_f=o 0.0033528} with
   | Ok cv -> let g = geocentric_to_geodetic a cv {v0=o 2e6; v1=o 3e6; v2=o 5.244e6} in
     one "gc2gde" [f g.elong,0.9827937232473290680,1e-14; f g.phi,0.9716018377570411532,1e-14; f g.height,332.36862495764397,1e-8];
     (match geodetic_to_geocentric a cv {elong=o 3.1; phi=o (-0.5); height=o 2500.0} with
      | Ok v -> one "gd2gce" (List.map2 (fun x y -> (x,y,1e-7)) (vl v) [-5598999.6665116328; 233011.63514630572; -3040909.0517314132])
      | Err _ -> print_endline "gd2gce: error")
   | Err _ -> print_endline "conv_new: error");
  (match get (from_julian a Debug (o 2400000.5) (o 50123.9999)) with
   | Ok (g,fr) -> one "jd2cal" [float g.year,1996.,0.; float g.month,2.,0.; float g.day,10.,0.; f fr,0.9999,1e-7]
   | Err _ -> print_endline "jd2cal: error");
  (let (x,y) = get (to_julian a Debug {year=2003; month=6; day=1}) in one "cal2jd" [f x,2400000.5,0.; f y,52791.,0.]);
  List.iter (fun (y,m,d,v) -> match get (delta_at a Debug {year=y; month=m; day=d} (o 0.)) with
   | Ok (Some x) -> one "dat" [f x,v,0.] | _ -> print_endline "dat: error") [2003,6,1,32.; 2008,1,17,33.; 2017,9,1,37.]

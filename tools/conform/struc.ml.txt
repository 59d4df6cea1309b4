open Model
open Drv
let num = function CF f -> fl f | CI z -> b2f z | _ -> nan
let zs l = List.iter (fun x -> print_endline (Big_int_Z.string_of_big_int x)) l
let ndf a = Printf.printf "shape %s\n" (String.concat " " (List.map string_of_int a.n_shape)); List.iter (fun c -> Printf.printf "%.17g\n" c) a.n_flat
let () = match opend Sys.argv.(1) Sys.argv.(2) with
 | Err e -> Printf.printf "open ERR %s\n" (exn_name e)
 | Ok (((g,h),k),d) ->
   List.iter (fun (sets,kind,tag) ->
     let sets = List.map s2c sets and kc = s2c kind in
     List.iter (fun (disc,dn) ->
       show (tag ^ "/" ^ dn ^ "/nodes") (get_coords h d sets kc disc) (List.iter (fun p -> List.iter (fun c -> print_endline (pc c)) p));
       show (tag ^ "/" ^ dn ^ "/connectivity") (get_elements h d sets kc disc) (fun ((a,b),c) -> zs a; print_endline "== offset__"; zs b; print_endline "== eltyp__"; zs c);
       show (tag ^ "/" ^ dn ^ "/displacement") (get_noderesults h d (s2c "displacement") (z 1) (OneCase (z 1)) sets kc disc)
         (function One l -> List.iter (List.iter (fun c -> print_endline (pc c))) l | Many _ -> print_endline "ERR many"))
       [(true,"elemres");(false,"noderes")];
     List.iter (fun rt -> show (tag ^ "/elemres/" ^ rt) (get_elementresults 0. 1. (+.) ( *.) (-.) (fun x -> -. x) (/.) (sqrt 3.) num h d (s2c rt) (s2c "nodes") (z 1) (OneCase (z 1)) sets) ndf)
       ["generalstress";"decomposedstress";"beamforce"])
   [["LD_plates"],"shell","LD_plates"; ["LD_chords";"LD_beams"],"beam","LD_beams"; ["MD_plates"],"shell","MD_plates";["MD_chords";"MD_beams"],"beam","MD_beams"];
   show "setnames" (get_setnames h d) (function None -> print_endline "None" | Some l -> List.iter (fun c -> print_endline (pc c)) l)

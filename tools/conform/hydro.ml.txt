open Model
open Drv
let () = match opend Sys.argv.(1) Sys.argv.(2) with
 | Err e -> Printf.printf "open ERR %s\n" (exn_name e)
 | Ok (((g,h),k),o) ->
   match hydro_init h o with Err e -> Printf.printf "init ERR %s\n" (exn_name e) | Ok x ->
   show "angular_freqs" (get_angular_freqs x) (List.iter (fun f -> print_endline (pc (CF f))));
   show "directions_rad" (get_directions (fun f->f) x (s2c "radians")) (List.iter (fun f -> print_endline (pc (CF f))));
   show "motion_raos" (get_motion_raos h x (z 1)) nd_;
   show "excitationforce_raos" (get_excitationforce_raos h x (z 1)) nd_;
   show "meandrift" (get_meandrift h x (z 1)) nd_;
   show "horiz_meandrift" (get_horiz_meandrift h x (z 1)) nd_;
   List.iter (fun (n,t) -> show n (get_matrix h x (z t) (z 1) (z 1)) nd_) ["bodymass",11;"addedmass",12;"potentialdamping",21;"viscousdamping",22;"hydrostatic_restoring",31;"mooring_restoring",32]

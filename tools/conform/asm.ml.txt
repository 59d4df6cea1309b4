open Model
open Drv
(* the data sets of an assembly *)
let () = match opend Sys.argv.(1) Sys.argv.(2) with
 | Err e -> Printf.printf "open ERR %s\n" (exn_name e)
 | Ok (((g,h),k),d) ->
   show "keys" (file_data h) (List.iter (fun ((key,k),o) ->
     Printf.printf "%s %s %s\n" (c2s key) (match k with KHydro -> "hydro" | KFirst -> "first" | _ -> "higher")
       (match get_coords h o [] [] false with Ok l -> string_of_int (List.length l) ^ " nodes" | Err e -> exn_name e)))

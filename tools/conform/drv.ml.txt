open Model
let s2c s = List.init (String.length s) (String.get s)
let c2s l = let b = Buffer.create 16 in List.iter (Buffer.add_char b) l; Buffer.contents b
let read f = let ic = open_in_bin f in let n = in_channel_length ic in let s = really_input_string ic n in close_in ic; s2c s
let b2f = Big_int_Z.float_of_big_int
let fl = function FNan -> nan | FInf b -> if b then neg_infinity else infinity | FZero b -> if b then -0. else 0. | FFin (s,m,e) -> let v = ldexp (b2f m) (Big_int_Z.int_of_big_int e) in if s then -. v else v
let rec pc = function CI z -> Big_int_Z.string_of_big_int z | CF f -> Printf.sprintf "%.17g" (fl f) | CS s -> "'" ^ c2s s ^ "'" | CC (a,b) -> Printf.sprintf "(%.17g,%.17g)" (fl a) (fl b) | CV l -> "[" ^ String.concat ";" (List.map pc l) ^ "]"
let exn_name = function
| StructError->"StructError"|ValueError->"ValueError"|IndexError->"IndexError"|KeyError->"KeyError"|AttributeError->"AttributeError"|TypeError->"TypeError"|UnicodeDecodeError->"Unicode"|NameError->"NameError"|NotImplementedError->"NotImpl"|OverflowError->"Overflow"|UnboundLocalError->"Unbound"|AssertionError->"Assertion"|_->"other"
let show name r f = match r with Ok a -> Printf.printf "== %s\n" name; f a | Err e -> Printf.printf "== %s\nERR %s\n" name (exn_name e)
let nd_ a = Printf.printf "shape %s\n" (String.concat " " (List.map string_of_int a.n_shape)); List.iter (fun c -> print_endline (pc c)) a.n_flat
let z = Big_int_Z.big_int_of_int
let opend dirname top =
  let d = List.map (fun f -> (s2c f, read (Filename.concat dirname f))) (List.filter (fun f -> Filename.check_suffix f ".SIF" || Filename.check_suffix f ".SIU" || Filename.check_suffix f ".FEM") (Array.to_list (Sys.readdir dirname))) in
  open_sif d (s2c top) glob0

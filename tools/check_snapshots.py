#!/usr/bin/env python3
"""Compare the model with the recorded behaviour of boxcars.

/repo/tests/snapshots holds, for every file of /repo/assets/replays/good, the
number of frames and a hash of the JSON that boxcars wrote for it
(/repo/tests/integration_tests.rs).  This script extracts the model to OCaml,
runs it on the same files, hashes the JSON text of the model in the same way
and compares.  It also checks the error messages that
the unit tests of /repo/src/parser.rs expect for the files of
/repo/assets/replays/bad.  Nothing of /repo is built or run.

Usage: check_snapshots.py [--coverage] [name ...]
Needs the compiled theories (make in /verif/rocq), ocamlfind, zarith, gcc.
"""
import collections, json, os, re, subprocess, sys, tempfile

HERE = os.path.dirname(os.path.abspath(__file__))
THEORIES = os.path.join(HERE, "..", "rocq", "theories")
REPLAYS = "/repo/assets/replays/"
SNAP = "/repo/tests/snapshots/integration_tests__replay_snapshots@%s.snap"

# the model, with machine representations of its numbers
EXTRACT = r"""
From Coq Require Import ZArith NArith List Bool.
From Coq Require Import ExtrOcamlBasic ExtrOcamlZBigInt ExtrOcamlNatInt ExtrOcamlString.
From Verif Require Import Base F32 Text NetTypes Errors Core Header Body BitReader ObjectIndex FrameDecoder Network Parser Json JsonNet JsonReplay JsonText Display.
Extract Constant Z.of_nat => "Zz.of_int".
Extract Constant Z.to_nat => "(fun z -> if Zz.sign z < 0 then 0 else Zz.to_int z)".
Extract Constant N.of_nat => "Zz.of_int".
Extract Constant N.to_nat => "Zz.to_int".
Extract Constant Z.pow => "(fun x y -> if Zz.sign y < 0 then Zz.zero else Zz.pow x (Zz.to_int y))".
Extract Constant Z.log2 => "(fun x -> if Zz.sign x <= 0 then Zz.zero else Zz.of_int (Zz.log2 x))".
Extract Constant Z.leb => "Zz.leq".
Extract Constant Z.ltb => "Zz.lt".
Extract Constant Z.testbit => "(fun x y -> if Zz.sign y < 0 then false else Zz.testbit x (Zz.to_int y))".
Extract Constant Z.land => "Zz.logand".
Extract Constant Z.lor => "Zz.logor".
Extract Constant Z.lxor => "Zz.logxor".
Extract Constant N.land => "Zz.logand".
Extract Constant N.lor => "Zz.logor".
Extract Constant N.lxor => "Zz.logxor".
Extract Constant N.ltb => "Zz.lt".
Extract Constant Byte.to_N => "(fun c -> Zz.of_int (Char.code c))".
Definition key_order : hash_order := fun V m => m.
Definition run (c : crc_check) (n : network_parse) (data : list byte) : outcome parse_error replay :=
  builder_parse std_bitter key_order (with_network_parse n (with_crc_check c (builder_new data))).
Definition show_error (e : parse_error) : str := display_parse_error (fun _ => lit "?") (fun _ => lit "?") e.
Definition cause (e : parse_error) : option parse_error :=
  match e with ECorruptReplay _ e' => Some e' | _ => None end.
Extraction "model.ml" run ser_replay f32_text quote json_text show_error cause.
"""

# HighwayHash, 256 bits, key zero
HASH = r"""
#include <stdint.h>
#include <string.h>
#include <stdio.h>
#include <caml/mlvalues.h>
#include <caml/alloc.h>
#include <caml/memory.h>
static uint64_t v0[4],v1[4],m0[4],m1[4]; static uint8_t pk[32]; static int np;
static const uint64_t i0[4]={0xdbe6d5d5fe4cce2fULL,0xa4093822299f31d0ULL,0x13198a2e03707344ULL,0x243f6a8885a308d3ULL};
static const uint64_t i1[4]={0x3bd39e10cb0ef593ULL,0xc0acf169b5f18a8cULL,0xbe5466cf34e90c6cULL,0x452821e638d01377ULL};
static void zm(uint64_t a1,uint64_t a0,uint64_t*d1,uint64_t*d0){
 *d0+=(((a0&0xff000000ULL)|(a1&0xff00000000ULL))>>24)|(((a0&0xff0000000000ULL)|(a1&0xff000000000000ULL))>>16)|(a0&0xff0000ULL)|((a0&0xff00ULL)<<32)|((a1&0xff00000000000000ULL)>>8)|(a0<<56);
 *d1+=(((a1&0xff000000ULL)|(a0&0xff00000000ULL))>>24)|(a1&0xff0000ULL)|((a1&0xff0000000000ULL)>>16)|((a1&0xff00ULL)<<24)|((a0&0xff000000000000ULL)>>8)|((a1&0xffULL)<<48)|(a0&0xff00000000000000ULL);}
static void up(const uint64_t*l){for(int i=0;i<4;i++){v1[i]+=m0[i]+l[i];m0[i]^=(v1[i]&0xffffffffULL)*(v0[i]>>32);v0[i]+=m1[i];m1[i]^=(v0[i]&0xffffffffULL)*(v1[i]>>32);}
 zm(v1[1],v1[0],&v0[1],&v0[0]);zm(v1[3],v1[2],&v0[3],&v0[2]);zm(v0[1],v0[0],&v1[1],&v1[0]);zm(v0[3],v0[2],&v1[3],&v1[2]);}
static void packet(const uint8_t*p){uint64_t l[4];memcpy(l,p,32);up(l);}
value hh_reset(value u){for(int i=0;i<4;i++){m0[i]=i0[i];m1[i]=i1[i];v0[i]=i0[i];v1[i]=i1[i];}np=0;return Val_unit;}
value hh_add(value s,value len){const uint8_t*p=(const uint8_t*)String_val(s);long n=Long_val(len);
 while(n>0){int k=32-np;if(k>n)k=n;memcpy(pk+np,p,k);np+=k;p+=k;n-=k;if(np==32){packet(pk);np=0;}}return Val_unit;}
static uint64_t rot(uint64_t x){return(x>>32)|(x<<32);}
value hh_final(value u){CAMLparam1(u);
 if(np){uint64_t n=np;for(int i=0;i<4;i++)v0[i]+=(n<<32)+n;
  for(int i=0;i<4;i++){uint32_t h0=v1[i]&0xffffffff,h1=v1[i]>>32;uint64_t a=(uint32_t)((h0<<n)|(h0>>(32-n)));uint64_t b=(uint32_t)((h1<<n)|(h1>>(32-n)));v1[i]=a|(b<<32);}
  uint8_t q[32]={0};int s4=n&3;const uint8_t*r=pk+(n&~3ULL);memcpy(q,pk,n&~3ULL);
  if(n&16){for(int i=0;i<4;i++)q[28+i]=r[i+s4-4];}else if(s4){q[16]=r[0];q[17]=r[s4>>1];q[18]=r[s4-1];}
  packet(q);}
 for(int k=0;k<10;k++){uint64_t p[4]={rot(v0[2]),rot(v0[3]),rot(v0[0]),rot(v0[1])};up(p);}
 uint64_t h[4];
 for(int j=0;j<4;j+=2){uint64_t a3=(v1[j+1]+m1[j+1])&0x3FFFFFFFFFFFFFFFULL,a2=v1[j]+m1[j],a1=v0[j+1]+m0[j+1],a0=v0[j]+m0[j];
  h[j+1]=a1^((a3<<1)|(a2>>63))^((a3<<2)|(a2>>62));h[j]=a0^(a2<<1)^(a2<<2);}
 char out[80];sprintf(out,"0x%016llx%016llx%016llx%016llx",(unsigned long long)h[0],(unsigned long long)h[1],(unsigned long long)h[2],(unsigned long long)h[3]);
 CAMLreturn(caml_copy_string(out));}
"""

# the compact JSON text of the model
DRIVER = r"""
external hh_reset : unit -> unit = "hh_reset"
external hh_add : Bytes.t -> int -> unit = "hh_add"
external hh_final : unit -> string = "hh_final"
let buf = Buffer.create 70000
let out : out_channel option ref = ref None
let flush () =
  let b = Buffer.to_bytes buf in
  hh_add b (Bytes.length b);
  (match !out with Some c -> output_bytes c b | None -> ());
  Buffer.clear buf
let add s = Buffer.add_string buf s; if Buffer.length buf > 60000 then flush ()
let addc c = Buffer.add_char buf c
let known : (Z.t, char list) Hashtbl.t = Hashtbl.create 100000
let show x = match Hashtbl.find_opt known x with
  | Some t -> t
  | None -> let t = Model.f32_text x in Hashtbl.add known x t; t
let text l = List.iter addc l; if Buffer.length buf > 60000 then flush ()
(* the outer arrays and objects here, so that the text need not be held in memory at once *)
let rec json depth (j : Model.json) = match j with
  | Model.JArr (_ :: _ as l) when depth > 0 ->
      addc '['; List.iteri (fun i x -> if i > 0 then addc ','; json (depth - 1) x) l; addc ']'
  | Model.JObj (_ :: _ as l) when depth > 0 ->
      addc '{'; List.iteri (fun i (k,x) -> if i > 0 then addc ','; text (Model.quote k); addc ':'; json (depth - 1) x) l; addc '}'
  | _ -> text (Model.json_text show Model.Compact 0 j)
let str l = let b = Buffer.create 100 in List.iter (Buffer.add_char b) l; Buffer.contents b
let () =
  let file = Sys.argv.(1) in
  let crc = match Sys.argv.(2) with "always" -> Model.CrcAlways | "never" -> Model.CrcNever | _ -> Model.CrcOnError in
  let net = match Sys.argv.(3) with "always" -> Model.NetAlways | "never" -> Model.NetNever | _ -> Model.NetIgnoreOnError in
  if Array.length Sys.argv > 4 then out := Some (open_out_bin Sys.argv.(4));
  let ic = open_in_bin file in
  let n = in_channel_length ic in
  let s = really_input_string ic n in
  let data = List.init n (fun i -> s.[i]) in
  match Model.run crc net data with
  | Model.Ok r ->
      hh_reset ();
      json (if n < 40000 then 0 else 3) (Model.ser_replay r); flush ();
      (match !out with Some c -> close_out c | None -> ());
      Printf.printf "%s %s\n" (match r.Model.r_network_frames with Some l -> string_of_int (List.length l) | None -> "-") (hh_final ())
  | Model.Err e ->
      Printf.printf "error %s\n" (str (Model.show_error e));
      (match Model.cause e with Some e' -> Printf.printf "source %s\n" (str (Model.show_error e')) | None -> ())
  | Model.Panic _ -> print_endline "panic"
"""


def build(d):
    for name, text in [("Extract.v", EXTRACT), ("hh.c", HASH), ("driver.ml", DRIVER), ("zz.ml", "include Z\n")]:
        open(os.path.join(d, name), "w").write(text)
    subprocess.run(["coqc", "-Q", THEORIES, "Verif", "Extract.v"], cwd=d, check=True, stdout=subprocess.DEVNULL)
    subprocess.run(["ocamlfind", "ocamlopt", "-package", "zarith", "-linkpkg", "-w", "-a",
                    "zz.ml", "model.mli", "model.ml", "hh.c", "driver.ml", "-o", "snap"],
                   cwd=d, check=True, stderr=subprocess.DEVNULL)


def run(d, path, crc, net, *more):
    c = ["bash", "-c", 'ulimit -s unlimited; exec "$0" "$@"', os.path.join(d, "snap"), path, crc, net, *more]
    return subprocess.run(c, capture_output=True, text=True).stdout.strip()


def good(d, names, coverage):
    right = wrong = 0
    kinds = collections.Counter()
    out = os.path.join(d, "out.json")
    for f in sorted(os.listdir(REPLAYS + "good")):
        if not f.endswith(".replay") or (names and f[:-7] not in names):
            continue
        t = open(SNAP % f).read()
        want = json.loads(t[t.index("{"):])
        got = run(d, REPLAYS + "good/" + f, "always", "always", *([out] if coverage else []))
        if got == "%d %s" % (want["frames"], want["hex"]):
            right += 1
        else:
            wrong += 1
            print("differs:", f, got[:300], want, flush=True)
        if coverage:
            text = open(out, encoding="utf8").read()
            kinds.update(re.findall(r'"attribute":\{"(\w+)"', text))
            kinds.update("RemoteId." + k for k in re.findall(r'"remote_id":\{"(\w+)"', text))
            kinds.update("ProductValue." + k for k in re.findall(r'"value":(?:\{)?"(\w+)"', text))
            kinds.update("FaceOrTitle " + k for k in re.findall(r'"(OldColor|NewColor|OldPaint|NewPaint|SpecialEdition|TeamEdition|NoColor|Absent)"', text))
    print("snapshots: %d equal, %d different" % (right, wrong))
    if coverage:
        for k, n in kinds.most_common():
            print("%10d %s" % (n, k))
    return wrong == 0


def bad(d):
    """parser.rs:617-719 and tests/samples.rs:235-248"""
    ok = True

    def expect(path, crc, net, *texts):
        nonlocal ok
        got = run(d, path, crc, net)
        fine = got.startswith("error ") if not texts else all(t in got for t in texts)
        print("ok " if fine else "BAD", os.path.basename(path), crc, net, "" if fine else got[:300])
        ok = ok and fine
    B = REPLAYS + "bad/fuzz-"
    big = "Could not decode replay debug info at offset (1010894): list of size"
    empty = os.path.join(d, "empty")
    open(empty, "wb").close()
    expect(empty, "never", "never")
    expect(B + "string-too-long.replay", "never", "never")
    expect(B + "string-too-long2.replay", "never", "always")
    expect(B + "slice-index.replay", "never", "never")
    expect(B + "corpus.replay", "never", "never")
    expect(B + "list-too-large.replay", "never", "never", "error " + big)
    expect(B + "list-too-large.replay", "on_error", "never",
           "error Failed to parse body and crc check failed. Replay is corrupt\n", "source " + big)
    expect(B + "list-too-large.replay", "always", "never",
           "error Crc mismatch. Expected 3765941959 but received 1314727725")
    expect(B + "large-object-id.replay", "never", "always", "error ", "attribute unknown or not implemented")
    expect(B + "too-many-frames.replay", "never", "always", "error Too many frames to decode: 738197735")
    data = bytearray(open(REPLAYS + "good/rumble.replay", "rb").read())
    data[4775] = 100
    changed = os.path.join(d, "changed")
    open(changed, "wb").write(data)
    expect(changed, "always", "never", "error Crc mismatch. Expected 337843175 but received 2877465516")
    expect(changed, "on_error", "never", "- 0x")
    return ok


def main():
    args = sys.argv[1:]
    coverage = "--coverage" in args
    names = [a for a in args if not a.startswith("--")]
    with tempfile.TemporaryDirectory() as d:
        build(d)
        a = bad(d)
        b = good(d, names, coverage)
    sys.exit(0 if a and b else 1)


main()

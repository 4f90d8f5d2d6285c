#!/usr/bin/env python3
"""Run the Rocq model on the project's own sample links and compare the JSON it prints with
the expected JSON in /repo/tests/json. Needs a finished build in /verif/rocq. Scratch files go
to a temporary directory; nothing of /repo is executed.

usage: check_samples.py [name ...]
"""
import base64, json, os, re, subprocess, sys, tempfile
from concurrent.futures import ThreadPoolExecutor

REPO, ROCQ = "/repo/tests", os.environ.get("ROCQ", "/verif/rocq/theories")
PRE = """From Verif Require Import Py PyTime Codec Utils Header StringData Targets Info Extra LnkFile Json Report.
Definition hexv (c : ascii) : N := let n := N_of_ascii c in if n <? 58 then n - 48 else n - 87.
Fixpoint unhex (s : string) : bytes :=
  match s with
  | String a (String b r) => n2b (hexv a * 16 + hexv b) :: unhex r
  | _ => []
  end.
Definition to_s (t : text) : string := string_of_list_ascii (map ascii_of_N t).
"""

def strings(out):
    return [s.replace('""', '"') for s in re.findall(r'"((?:[^"]|"")*)"', out)]

def run(body):
    with tempfile.TemporaryDirectory() as d:
        p = os.path.join(d, "S.v")
        open(p, "w").write(PRE + body)
        r = subprocess.run(["bash", "-c", f"ulimit -s unlimited; coqc -Q {ROCQ} Verif {p}"], capture_output=True, text=True, timeout=1200)
        if r.returncode:
            raise RuntimeError(r.stderr[-2000:])
        return r.stdout

def model(data, allow=True, all_=True):
    body = f'''
Definition res := Eval vm_compute in
  match (l <- lnk_init (FromBytes (unhex "{data.hex()}")) CpNone {str(allow).lower()} ;;
         d <- get_json l {str(all_).lower()} ;; ret (l_size l, to_s (print_json_text d))) with
  | (_, Ok (n, s)) => Some (n, s)
  | (_, Err e) => None
  end.
Eval vm_compute in match res with Some (n, s) => n | None => 0 end.
Eval vm_compute in match res with Some (n, s) => s | None => "" end.
'''
    out = run(body)
    size = int(re.search(r"= (\d+)", out).group(1))
    return size, strings(out)[0]

def check(name):
    data = base64.b64decode(open(f"{REPO}/samples/{name}", "rb").read())
    want = json.load(open(f"{REPO}/json/{name}.json"))
    size, txt = model(data)
    got = json.loads(txt)
    canon = json.dumps(want, indent=4, separators=(",", ": "), sort_keys=True)
    return name, size == len(data), got == want, txt == canon

def main():
    names = sys.argv[1:] or sorted(os.listdir(f"{REPO}/samples"))
    bad = 0
    with ThreadPoolExecutor(4) as ex:
        for n, a, b, c in ex.map(check, names):
            print(n, "size", a, "json", b, "text", c, flush=True)
            bad += not (a and b and c)
    if not sys.argv[1:]:
        data = base64.b64decode(open(f"{REPO}/samples/unknown_target", "rb").read())
        ok = json.loads(model(data, allow=False)[1]) == json.load(open(f"{REPO}/json/unknown_target_not_terminal.json"))
        print("unknown_target_not_terminal", ok); bad += not ok
        data = base64.b64decode(open(f"{REPO}/samples/microsoft_example", "rb").read())
        ok = json.loads(model(data, all_=False)[1]) == json.load(open(f"{REPO}/json/microsoft_example_not_all_attributes.json"))
        print("microsoft_example_not_all", ok); bad += not ok
        name = "5afe4de1b92fc382.customDestinations-ms"
        data = base64.b64decode(open(f"{REPO}/raw/{name}", "rb").read())[20:]
        want = json.load(open(f"{REPO}/json/{name}.json"))
        for i in range(9):
            data = data[16:]
            size, txt = model(data, allow=False)
            ok = json.loads(txt) == want[i]
            print(name, i, ok, flush=True); bad += not ok
            data = data[size:]
    print("failures:", bad)
    sys.exit(bad != 0)

main()

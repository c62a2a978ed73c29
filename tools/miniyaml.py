"""A small YAML reader (block and flow style, block scalars, anchors) for the test data of /repo; PyYAML is not available here."""
import re

class Opaque:
    def __init__(self, text): self.text = text
    def __repr__(self): return f"Opaque({self.text})"

BOOL = {**{k: True for k in "yes Yes YES true True TRUE on On ON".split()}, **{k: False for k in "no No NO false False FALSE off Off OFF".split()}}
INT = re.compile(r"[-+]?0b[0-1_]+$|[-+]?0[0-7_]+$|[-+]?(?:0|[1-9][0-9_]*)$|[-+]?0x[0-9a-fA-F_]+$|[-+]?[1-9][0-9_]*(?::[0-5]?[0-9])+$")
FLOAT = re.compile(r"[-+]?(?:[0-9][0-9_]*)\.[0-9_]*(?:[eE][-+][0-9]+)?$|\.[0-9][0-9_]*(?:[eE][-+][0-9]+)?$|[-+]?\.(?:inf|Inf|INF)$|\.(?:nan|NaN|NAN)$")
DATE = re.compile(r"\d{4}-\d\d?-\d\d?([Tt ].*)?$")

def scalar(s):
    if s in ("", "~", "null", "Null", "NULL"): return None
    if s in BOOL: return BOOL[s]
    if INT.match(s):
        t = s.replace("_", "")
        if ":" in t:
            sign = -1 if t[0] == "-" else 1
            n = 0
            for d in t.lstrip("+-").split(":"): n = n * 60 + int(d)
            return sign * n
        if t.lstrip("+-").startswith("0x"): return int(t, 16)
        if t.lstrip("+-").startswith("0b"): return int(t, 2)
        if len(t.lstrip("+-")) > 1 and t.lstrip("+-").startswith("0"): return int(t, 8)
        return int(t)
    if FLOAT.match(s): return float(s.replace("_", "")) if "inf" not in s.lower() and "nan" not in s.lower() else Opaque(s)
    if DATE.match(s): return Opaque(s)
    return s

class P:
    def __init__(self, text):
        self.lines = text.expandtabs(8).split("\n"); self.i = 0; self.anchors = {}
    def blank(self, l): return not l.strip() or l.strip().startswith("#")
    def peek(self):
        while self.i < len(self.lines) and (self.blank(self.lines[self.i]) or self.lines[self.i].startswith(("---", "%"))) : self.i += 1
        return self.lines[self.i] if self.i < len(self.lines) else None
    @staticmethod
    def ind(l): return len(l) - len(l.lstrip(" "))
    def block(self, n):
        l = self.peek()
        if l is None or self.ind(l) < n: return None
        k = self.ind(l); s = l.strip()
        if s == "-" or s.startswith("- "): return self.seq(k)
        if self.key(s) is not None: return self.map(k)
        self.i += 1
        return self.value(s, k - 1)
    def key(self, s):
        """(key, rest) if the text is an entry of a block mapping"""
        if s[:1] in "[{": return None
        if s[:1] in "\"'":
            try: k, j = self.quoted(s, 0)
            except (IndexError, ValueError): return None
            m = re.match(r"\s*:(\s|$)", s[j:])
            return (k, s[j + m.end():].strip()) if m else None
        m = re.search(r":(\s|$)", s)
        if not m or s[:1] in "|>&*!%@`": 
            if m and s[:1] == "*": pass
            else: return None if not (m and s[:2] == "<<") else (s[:m.start()], s[m.end():].strip())
        k = s[:m.start()]
        if " #" in k: return None
        return (scalar(k.strip()), s[m.end():].strip())
    def quoted(self, s, j):
        q = s[j]; j += 1; out = []
        while True:
            c = s[j]
            if q == "'" and c == "'":
                if s[j + 1:j + 2] == "'": out.append("'"); j += 2; continue
                return "".join(out), j + 1
            if q == '"' and c == '"': return "".join(out), j + 1
            if q == '"' and c == "\\":
                e = s[j + 1]
                m = {"n": "\n", "t": "\t", '"': '"', "\\": "\\", "/": "/", "r": "\r", "0": "\0", " ": " ", "b": "\b", "e": "\x1b"}
                if e == "u": out.append(chr(int(s[j + 2:j + 6], 16))); j += 6; continue
                if e == "U": out.append(chr(int(s[j + 2:j + 10], 16))); j += 10; continue
                if e == "x": out.append(chr(int(s[j + 2:j + 4], 16))); j += 4; continue
                if e == "\n": j += 2; continue
                out.append(m[e]); j += 2; continue
            if c == "\n":
                while out and out[-1] == " ": out.pop()
                k = j; nl = 0
                while k < len(s) and s[k] in " \n": nl += s[k] == "\n"; k += 1
                out.append(" " if nl == 1 else "\n" * (nl - 1)); j = k; continue
            out.append(c); j += 1
    def map(self, n):
        d = {}
        while True:
            l = self.peek()
            if l is None or self.ind(l) != n: 
                if l is not None and self.ind(l) > n: raise ValueError("indent " + l)
                break
            s = l.strip()
            if s.startswith("- "): break
            kr = self.key(s)
            if kr is None: raise ValueError("not an entry: " + s)
            self.i += 1
            k, rest = kr
            v = self.value(rest, n)
            if k == "<<":
                for src in (v if isinstance(v, list) else [v]):
                    for a, b in src.items(): d.setdefault(a, b)
            else: d[k] = v
        return d
    def seq(self, n):
        out = []
        while True:
            l = self.peek()
            if l is None or self.ind(l) != n or not (l.strip() == "-" or l.strip().startswith("- ")): break
            rest = l.strip()[1:]
            pad = len(rest) - len(rest.lstrip(" ")); rest = rest.strip()
            rest_nc = self.strip_comment(rest) if rest[:1] not in "\"'" else rest
            if rest_nc == "": self.i += 1; out.append(self.block(n + 1)); continue
            m = re.match(r"(&\S+)\s+(.*)$", rest)
            body = m.group(2) if m else rest
            if self.key(body) is not None or body.startswith("- "):
                off = n + 1 + pad + (len(rest) - len(body))
                self.lines[self.i] = " " * off + body
                v = self.block(off)
                if m: self.anchors[m.group(1)[1:]] = v
                out.append(v)
            else:
                self.i += 1; out.append(self.value(rest, n))
        return out
    def strip_comment(self, s):
        if s.startswith("#"): return ""
        m = re.search(r"\s#", s)
        return s[:m.start()].rstrip() if m else s
    def value(self, s, n):
        """the value written after 'key:' or '-' at indentation n; self.i is the next line"""
        if s.startswith("&"):
            m = re.match(r"&(\S+)\s*(.*)$", s)
            v = self.value(m.group(2), n); self.anchors[m.group(1)] = v; return v
        if s.startswith("!"):
            m = re.match(r"!!(\S+)\s*(.*)$", s); v = self.value(m.group(2), n)
            return str(v) if m.group(1) == "str" else v
        if s.startswith("*"): return self.anchors[self.strip_comment(s)[1:]]
        if s == "" or s.startswith("#"):
            l = self.peek()
            if l is None: return None
            if self.ind(l) > n: return self.block(self.ind(l))
            if self.ind(l) == n and (l.strip() == "-" or l.strip().startswith("- ")): return self.seq(n)
            return None
        if s[0] in "|>" and re.match(r"[|>][-+0-9]*\s*(#.*)?$", s): return self.scalar_block(s, n)
        if s[0] in "\"'":
            while True:
                try: v, j = self.quoted(s, 0); break
                except IndexError:
                    s += "\n" + self.lines[self.i].strip(); self.i += 1
            assert self.strip_comment(s[j:].strip() and " " + s[j:].strip() or "").strip() == "", s
            return v
        if s[0] in "[{":
            while True:
                try: v, j = self.flow(s, 0); break
                except IndexError:
                    s += "\n" + self.strip_comment(self.lines[self.i].strip()); self.i += 1
            return v
        s = self.strip_comment(s); extra = [s]
        while self.i < len(self.lines):
            l = self.lines[self.i]
            if not l.strip():
                k = self.i
                while k < len(self.lines) and not self.lines[k].strip(): k += 1
                if k < len(self.lines) and self.ind(self.lines[k]) > n: extra.append("\n"); self.i += 1; continue
                break
            if self.ind(l) <= n or l.strip().startswith("#"): break
            extra.append(self.strip_comment(l.strip())); self.i += 1
        if len(extra) == 1: return scalar(s)
        out = extra[0]
        prev_nl = False
        for e in extra[1:]:
            if e == "\n": out += "\n"; prev_nl = True
            else: out += e if prev_nl else " " + e; prev_nl = False
        return out
    def scalar_block(self, s, n):
        fold = s[0] == ">"; chomp = "-" if "-" in s.split("#")[0] else "+" if "+" in s.split("#")[0] else ""
        ls = []
        while self.i < len(self.lines) and (not self.lines[self.i].strip() or self.ind(self.lines[self.i]) > n):
            ls.append(self.lines[self.i]); self.i += 1
        body = [l for l in ls if l.strip()]
        m = re.search(r"[0-9]", s)
        b = n + int(m.group()) if m else (self.ind(body[0]) if body else 0)
        ls = [l[b:] if l.strip() else "" for l in ls]
        trail = 0
        while ls and ls[-1] == "": ls.pop(); trail += 1
        if not fold: t = "\n".join(ls)
        else:
            t = ""; 
            for idx, l in enumerate(ls):
                if idx == 0: t = l; continue
                prev = ls[idx - 1]
                if l == "": t += "\n" if True else ""; continue
                if prev == "":
                    # blank lines: each is one newline already added
                    t += ("\n" if l.startswith(" ") or self.last_text(ls, idx).startswith(" ") else "") + l
                elif l.startswith(" ") or prev.startswith(" "): t += "\n" + l
                else: t += " " + l
        if chomp == "-": return t
        if not ls: return ""
        return t + ("\n" * (trail if trail else 1) if chomp == "+" else "\n")
    @staticmethod
    def last_text(ls, idx):
        k = idx - 1
        while k >= 0 and ls[k] == "": k -= 1
        return ls[k] if k >= 0 else ""
    def ws(self, s, j):
        while s[j] in " \n\t": j += 1
        return j
    def flow(self, s, j):
        j = self.ws(s, j); c = s[j]
        if c == "[":
            j += 1; out = []
            while True:
                j = self.ws(s, j)
                if s[j] == "]": return out, j + 1
                v, j = self.flow(s, j); j = self.ws(s, j)
                if s[j] == ":" : raise ValueError("flow pair")
                out.append(v)
                if s[j] == ",": j += 1
        if c == "{":
            j += 1; d = {}
            while True:
                j = self.ws(s, j)
                if s[j] == "}": return d, j + 1
                k, j = self.flow(s, j); j = self.ws(s, j)
                if s[j] == ":": v, j = self.flow(s, j + 1)
                else: v = None
                j = self.ws(s, j); d[k] = v
                if s[j] == ",": j += 1
        if c in "\"'": return self.quoted(s, j)
        k = j
        while s[k] not in ",[]{}\n" and not (s[k] == ":" and s[k + 1] in " \n,]}"): k += 1
        t = s[j:k].strip()
        return (self.anchors[t[1:]] if t.startswith("*") else scalar(t)), k

def load(text):
    if text.lstrip().startswith("{"):
        import json
        try: return json.loads(text)
        except ValueError: pass
    p = P(text)
    v = p.block(0)
    if p.peek() is not None: raise ValueError("left over: " + p.peek())
    return v

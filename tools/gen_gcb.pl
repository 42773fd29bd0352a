#!/usr/bin/perl
# Generates rocq/theories/GcbTable.v: the Grapheme_Cluster_Break values that the
# definitions of /repo/docs/BasicText.md name, from the Unicode data of perl.
use strict; use warnings;
sub ranges { my ($v) = @_; my @r; my $re = qr/\p{GCB=$v}/;
  for my $c (0 .. 0x10FFFF) { next if $c >= 0xD800 && $c <= 0xDFFF; no warnings; next unless chr($c) =~ $re;
    if (@r && $r[-1][1] == $c - 1) { $r[-1][1] = $c } else { push @r, [$c, $c] } }
  return map { sprintf "(0x%X, 0x%X)", @$_ } @r; }
sub block { my ($name, $v) = @_; my @r = ranges($v); my @o; push @o, join("; ", splice(@r, 0, 6)) while @r;
  print "Definition $name : list (N * N) := [\n  ", join(";\n  ", @o), "].\n\n"; }
print "(** Generated by tools/gen_gcb.pl from the Unicode data of perl.  Specification,\n    not model: the values of Grapheme_Cluster_Break named in\n    /repo/docs/BasicText.md:31-44. *)\n";
print "From Coq Require Import NArith List.\nImport ListNotations.\nLocal Open Scope N_scope.\n\n";
block("gcb_zwj", "ZWJ"); block("gcb_spacing_mark", "SpacingMark"); block("gcb_extend", "Extend"); block("gcb_prepend", "Prepend");

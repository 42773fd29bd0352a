#!/usr/bin/env perl
# usage: gen_nfc_tests.pl <seed> <count>
# Random strings of characters that normalization acts on, with their NFD, NFC
# and NFKD forms according to perl's Unicode::Normalize, as a Coq module.
use strict; use warnings;
use Unicode::Normalize qw(NFC NFD NFKD getCombinClass);
my ($seed, $count) = @ARGV; srand($seed);
my (@marks, @comp, @compat, @second);
for my $c (0x80 .. 0x2FA1F) {
  next if $c >= 0xD800 && $c <= 0xDFFF or $c >= 0xAC00 && $c <= 0xD7A3;
  my $s = chr $c;
  push @marks, $c if getCombinClass($c);
  if (NFD($s) ne $s) { push @comp, $c; push @second, map { ord } split //, NFD($s) }
  elsif (NFKD($s) ne $s) { push @compat, $c }
}
sub pick { $_[rand @_] }
sub char {
  my $k = rand;
  return pick(@marks) if $k < 0.3;
  return pick(@comp) if $k < 0.45;
  return pick(@second) if $k < 0.7;
  return 0xAC00 + int rand 11172 if $k < 0.75;
  return 0xAC00 + 28 * int rand 399 if $k < 0.79;
  return pick(0x1100 .. 0x1112, 0x1161 .. 0x1175, 0x11A7 .. 0x11C2) if $k < 0.89;
  return pick(@compat) if $k < 0.93;
  return pick(0x34F, 0x61 .. 0x7A, 0x41 .. 0x5A);
}
sub show { '[' . join(';', map { sprintf '0x%X', ord } split //, $_[0]) . ']' }
print "(** Generated by tools/gen_nfc_tests.pl $seed $count - do not edit.\n    Random strings with their NFD, NFC and NFKD forms according to perl's\n    Unicode::Normalize. *)\n";
print "From Coq Require Import NArith List.\nImport ListNotations.\nLocal Open Scope N_scope.\n\nDefinition t_nfc : list (list N * (list N * list N * list N)) := [\n";
for my $i (1 .. $count) {
  my $s = join '', map { chr char() } 1 .. 1 + int rand 9;
  print '(', show($s), ',(', show(NFD($s)), ',', show(NFC($s)), ',', show(NFKD($s)), '))', $i < $count ? ";\n" : "\n";
}
print "].\n";

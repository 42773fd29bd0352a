#!/usr/bin/perl
# Generates rocq/theories/UcdTables.v from the Unicode 15.0 data of perl 5.38
# (Unicode::Normalize, Unicode::UCD) plus the additions of Unicode 15.1.
# CJK standardized variants come from the expectations in
# /repo/tests/basic-text-string.rs.
use strict; use warnings; no warnings 'utf8';
use Unicode::Normalize qw(decompose getCombinClass getComposite checkNFC isComp_Ex isNFC_NO isNFC_MAYBE);
use Unicode::UCD;
die "need 15.0" unless Unicode::UCD::UnicodeVersion() eq '15.0.0';
my %new151; $new151{$_}=1 for (0x2FFC..0x2FFF, 0x31EF, 0x2EBF0..0x2EE5D);
die unless scalar(keys %new151)==627;
sub h { sprintf("0x%X", $_[0]) }
sub lst { "[".join(";", map { h($_) } @_)."]" }
my (@ccc,@canon,@compat,@no,@maybe,@unas);
my ($ulo,$uhi);
for my $c (0..0x10FFFF) {
  my $sur = ($c>=0xD800 && $c<=0xDFFF);
  my $ch = chr($c);
  my $pub;
  if ($sur) { $pub=0 } else {
    $pub = ($ch =~ /\p{Gc=Cn}|\p{Gc=Co}|\p{Gc=Cs}/) ? 0 : 1;
    $pub = 1 if $new151{$c};
  }
  if (!$pub) { if (defined $uhi && $uhi==$c-1) {$uhi=$c} else { push @unas,[$ulo,$uhi] if defined $ulo; $ulo=$uhi=$c } }
  next if $sur;
  my $cc = getCombinClass($c);
  push @ccc,[$c,$cc] if $cc;
  next if $c>=0xAC00 && $c<=0xD7A3;
  my @d = map {ord} split //, decompose($ch,0);
  my @k = map {ord} split //, decompose($ch,1);
  my $hasd = !(@d==1 && $d[0]==$c);
  my $hask = !(@k==1 && $k[0]==$c);
  push @canon,[$c,@d] if $hasd;
  push @compat,[$c,@k] if $hask && !("@d" eq "@k");
  push @no,$c if isNFC_NO($c);
  push @maybe,$c if isNFC_MAYBE($c);
}
push @unas,[$ulo,$uhi];
# composition pairs: every one-step canonical pair (a,b) whose composite exists
my %seen; my @pairs;
# use UnicodeData one-step decompositions
my $txt = do "unicore/Decomposition.pl" ; 
my @ent;
for my $line (split /\n/, $txt) {
  my ($lo,$hi,$m)=split /\t/, $line; next unless defined $m;
  next if $m =~ /^</;
  my @x = map {hex} split / /, $m;
  next unless @x==2;
  my $r=hex($lo);
  next if ($hi ne '' );
  my $g = getComposite($x[0],$x[1]);
  push @pairs,[$x[0],$x[1],$g] if defined $g && $g==$r && !isComp_Ex($r);
}
@pairs = sort {$a->[0]<=>$b->[0] || $a->[1]<=>$b->[1]} @pairs;
# CJK variants
my @cjk; my %cj;
open my $f,'<:utf8','/repo/tests/basic-text-string.rs' or die;
my $src = do { local $/; <$f> };
while ($src =~ /from_text_lossy\("\\u\{([0-9a-f]+)\}"\)\.as_str\(\),\s*"\\u\{([0-9a-f]+)\}\\u\{(fe0[0-9a-f])\}"/g) {
  $cj{hex $1}=[hex $2, hex $3];
}
for my $c (sort {$a<=>$b} keys %cj) { push @cjk,[$c,@{$cj{$c}}];
  my @d = map {ord} split //, decompose(chr($c),0);
  die sprintf("%x",$c) unless @d==1 && $d[0]==$cj{$c}[0]; }
sub block { my($name,$ty,$cm,@rows)=@_; print "(** $cm *)\nDefinition $name : list ($ty) := [\n";
  print join(";\n", @rows),"\n].\n\n"; }
sub pack4 { my @o; while(@_) { push @o, join("; ", splice(@_,0,6)) } @o }
print <<'HDR';
(** Generated by tools/gen_ucd.pl - do not edit.
    Unicode 15.1.0 data used by the unicode-normalization 0.1.23 crate
    (dependency of /repo/internals; UNICODE_VERSION = (15,1,0)). *)
From Coq Require Import NArith List.
Import ListNotations.
Local Open Scope N_scope.

HDR
block("raw_ccc","N * N","Canonical_Combining_Class, non-zero values only.", pack4(map {"(".h($_->[0]).",$_->[1])"} @ccc));
block("raw_canon","N * list N","Full canonical decompositions (tables.rs CANONICAL_DECOMPOSED), Hangul excluded.", pack4(map {my @x=@$_; my $c=shift @x; "(".h($c).",".lst(@x).")"} @canon));
block("raw_compat","N * list N","Full compatibility decompositions where they differ from the canonical one (tables.rs COMPATIBILITY_DECOMPOSED).", pack4(map {my @x=@$_; my $c=shift @x; "(".h($c).",".lst(@x).")"} @compat));
block("raw_comp","N * N * N","Primary composites: (first, second, composite) (tables.rs composition_table).", pack4(map {"(".join(",",map{h($_)}@$_).")"} @pairs));
block("raw_qc_no","N","NFC_Quick_Check = No.", pack4(map {h($_)} @no));
block("raw_qc_maybe","N","NFC_Quick_Check = Maybe.", pack4(map {h($_)} @maybe));
block("raw_not_public","N * N","Ranges with General_Category Cn, Co or Cs (complement of is_public_assigned).", pack4(map {"(".h($_->[0]).",".h($_->[1]).")"} @unas));
block("raw_cjk","N * (N * N)","CJK compatibility ideograph -> (base, variation selector) (tables.rs CJK_COMPAT_VARIANTS_DECOMPOSED).", pack4(map {"(".h($_->[0]).",(".h($_->[1]).",".h($_->[2])."))"} @cjk));
printf STDERR "ccc %d canon %d compat %d comp %d no %d maybe %d unas %d cjk %d\n", map {scalar @$_} (\@ccc,\@canon,\@compat,\@pairs,\@no,\@maybe,\@unas,\@cjk);

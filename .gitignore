*.vo
*.vok
*.vos
*.glob
*.aux
.*.aux
.lia.cache
.nia.cache
*/Makefile
rocq/Makefile*
*.d
*.cache
